(** From the tests of the visitor to shapes of nodes and texts. *)
From Verif Require Import PyBase PyLemmas Proof_Strings Utility RulesData Rules Config Formats Paths AstKinds Ast
  State Visitor Spec_Base Spec_Visitor.

Lemma as_str_inv x s : as_str x = s -> s <> "" -> x = VStr s.
Proof. intros <- N. destruct x; simpl in *; congruence. Qed.

Lemma named_node u p fs n : fstr "id" fs = n -> n <> "" -> named n (VNode KName u p fs).
Proof. intros E N. split; [reflexivity|]. exact (as_str_inv _ _ E N). Qed.

Lemma name_id_kind v i : name_id v = Some i -> isa KName v.
Proof. unfold name_id. destruct v; try discriminate. destruct k; try discriminate. reflexivity. Qed.

Lemma name_id_named v i : name_id v = Some i -> i <> "" -> named i v.
Proof.
  intros E N. destruct v; try discriminate. destruct k; try discriminate.
  injection E as E. apply named_node; assumption.
Qed.

Lemma ostr_eqb_eq a b : ostr_eqb a b = true <-> a = b.
Proof.
  destruct a, b; simpl; split; intros E; try congruence; try discriminate.
  - apply String.eqb_eq in E. congruence.
  - injection E as <-. apply eqb_refl_s.
Qed.

Lemma const_val_constant v c : const_val v = Some c -> constant c v.
Proof.
  destruct v; try discriminate. destruct k; try discriminate. intros E. injection E as E.
  split; [reflexivity|exact E].
Qed.

Lemma str_val_constant v t : str_val v = Some t -> constant (VStr t) v.
Proof.
  unfold str_val. destruct (const_val v) as [[]|] eqn:E; try discriminate.
  intros X. injection X as <-. apply const_val_constant, E.
Qed.

Lemma bytes_node_constant v : is_bytes_node v = true -> exists b, constant (VBytes b) v.
Proof.
  unfold is_bytes_node. destruct (const_val v) as [[]|] eqn:E; try discriminate.
  eauto using const_val_constant.
Qed.

Lemma int_const_constant v z : int_const v = Some z -> constant (VInt z) v.
Proof.
  unfold int_const. destruct (const_val v) as [[]|] eqn:E; try discriminate.
  intros X. injection X as <-. apply const_val_constant, E.
Qed.

Lemma int_node_literal v : is_int_node v = true -> int_literal v.
Proof.
  unfold is_int_node. destruct (int_const v) as [z|] eqn:E.
  - intros _. left. exists z. apply int_const_constant, E.
  - intros H. apply andb_true_iff in H as [H1 H2]. right. split; [exact H1|].
    destruct (int_const (attr "operand" v)) as [z|] eqn:E2; [|discriminate].
    exists z. apply int_const_constant, E2.
Qed.

Lemma neg_node_literal v : is_neg_int_node v = true -> negative_literal v.
Proof.
  unfold is_neg_int_node. destruct (int_const v) as [z|] eqn:E.
  - intros H. left. exists z. split; [apply int_const_constant, E|lia].
  - intros H. apply andb_true_iff in H as [H1 H2]. apply andb_true_iff in H1 as [H0 H1].
    right. split; [exact H0|]. split; [exact H1|].
    destruct (int_const (attr "operand" v)) as [z|] eqn:E2; [|discriminate].
    exists z. apply int_const_constant, E2.
Qed.

Lemma none_node_literal v : is_none_node v = true -> none_literal v.
Proof.
  unfold is_none_node. destruct (name_id v) as [i|] eqn:E.
  - intros H. apply String.eqb_eq in H as ->. left. apply name_id_named; [exact E|discriminate].
  - destruct (const_val v) as [[]|] eqn:E2; try discriminate. intros _. right. apply const_val_constant, E2.
Qed.

Lemma ellipsis_node_constant v : is_ellipsis_node v = true <-> constant VEllipsis v.
Proof.
  unfold is_ellipsis_node. split.
  - destruct (const_val v) as [[]|] eqn:E; try discriminate. intros _. apply const_val_constant, E.
  - intros [K A]. destruct v; try discriminate. destruct k; try discriminate. unfold const_val. change (fld "value" fs = VEllipsis) in A. rewrite A. reflexivity.
Qed.

Lemma star_unpack_load v : is_valid_star_unpack v = true -> star_load v.
Proof. unfold is_valid_star_unpack. intros H. apply andb_true_iff in H. exact H. Qed.

Lemma is_none_iff v : is_none v = true <-> v = VNone.
Proof. destruct v; simpl; split; intros; congruence. Qed.
Lemma is_none_false v : is_none v = false <-> v <> VNone.
Proof. destruct v; simpl; split; intros; congruence. Qed.

Lemma kw_unpack_double v : is_kw_unpack v = true -> double_star v.
Proof.
  unfold is_kw_unpack. intros H. apply andb_true_iff in H as [H1 H2]. split.
  - apply is_none_iff, H1.
  - apply is_none_false, negb_true_iff, H2.
Qed.

(** *** Positions *)

Lemma positions_spec {A} (f : A -> bool) l : forall i p, In p (positions f i l) <->
  exists a x b, l = a ++ x :: b /\ f x = true /\ p = (i + List.length a)%nat.
Proof.
  induction l as [|y r IH]; intros i p; simpl.
  - split; [tauto|]. intros (a & x & b & E & _). destruct a; discriminate.
  - assert (R : In p (positions f (S i) r) <-> exists a x b, y :: r = (y :: a) ++ x :: b /\ f x = true /\
                 p = (i + List.length (y :: a))%nat).
    { rewrite IH. split; intros (a & x & b & E & F & P); exists a, x, b; simpl in *.
      - subst r. repeat split; try assumption; lia.
      - injection E as ->. repeat split; try assumption; lia. }
    destruct (f y) eqn:Fy; simpl; rewrite R; split.
    + intros [<-|(a & x & b & E & F & P)]; [exists [], y, r; simpl; repeat split; auto; lia|exists (y :: a), x, b; auto].
    + intros (a & x & b & E & F & P). destruct a as [|z a]; simpl in *.
      * left. injection E as -> ->. lia.
      * right. injection E as -> ->. exists a, x, b. auto.
    + intros (a & x & b & E & F & P). exists (y :: a), x, b. auto.
    + intros (a & x & b & E & F & P). destruct a as [|z a]; simpl in *.
      * injection E as -> ->. congruence.
      * injection E as -> ->. exists a, x, b. auto.
Qed.

Lemma positions_sorted {A} (f : A -> bool) l : forall i a p q b, positions f i l = a ++ p :: q :: b -> (p < q)%nat.
Proof.
  assert (G : forall l i q, In q (positions f i l) -> (i <= q)%nat).
  { intros l' i q I. apply positions_spec in I as (a & x & b & _ & _ & ->). lia. }
  induction l as [|y r IH]; intros i a p q b E; simpl in E; [destruct a; discriminate|].
  destruct (f y); [|exact (IH _ _ _ _ _ E)].
  destruct a as [|z a]; simpl in E.
  - injection E as <- E. assert (I : In q (positions f (S i) r)) by (rewrite E; left; reflexivity).
    apply G in I. lia.
  - injection E as _ E. exact (IH _ _ _ _ _ E).
Qed.

Lemma needs_gen_unp_not_last {A} (f : A -> bool) (P : A -> Prop) l :
  (forall x, f x = true -> P x) -> needs_gen_unp f l = true -> not_last P l.
Proof.
  intros FP H. unfold needs_gen_unp in H.
  assert (Q : exists p, In p (positions f 0 l) /\ (p + 1 < List.length l)%nat).
  { apply orb_true_iff in H as [H|H].
    - apply Nat.ltb_lt in H. destruct (positions f 0 l) as [|p [|q r]] eqn:E; simpl in H; try lia.
      exists p. split; [left; reflexivity|].
      pose proof (positions_sorted f l 0 [] p q r E) as L.
      assert (I : In q (positions f 0 l)) by (rewrite E; right; left; reflexivity).
      apply positions_spec in I as (a & x & b & -> & _ & ->). rewrite app_length in *. simpl in *. lia.
    - apply existsb_exists in H as (p & I & L). apply Nat.ltb_lt in L. exists p. split; [exact I|lia]. }
  destruct Q as (p & I & L). apply positions_spec in I as (a & x & b & -> & F & ->).
  destruct b as [|y b]; [rewrite app_length in L; simpl in L; lia|].
  exists a, x, y, b. split; [reflexivity|apply FP, F].
Qed.

(** *** Annotations *)

Lemma ann_is_annotates n ann : n <> "" -> ann_is n ann = true -> annotates n ann.
Proof.
  intros N H. unfold ann_is in H. apply orb_true_iff in H as [H|H].
  - apply ostr_eqb_eq in H. left. apply name_id_named; assumption.
  - apply andb_true_iff in H as [H1 H2]. apply ostr_eqb_eq in H2. right. split; [exact H1|].
    apply name_id_named; assumption.
Qed.

(** *** Walks *)

Lemma merge_In {A} : forall (a b : list (list A)) x,
  In x (List.concat (merge a b)) <-> In x (List.concat a) \/ In x (List.concat b).
Proof.
  induction a as [|y a IH]; intros [|z b] x; cbn [merge]; try (simpl; tauto).
  cbn [List.concat]. rewrite !in_app_iff, IH. tauto.
Qed.

Lemma merge_all_In {A} : forall (l : list (list (list A))) x,
  In x (List.concat (merge_all l)) <-> exists y, In y l /\ In x (List.concat y).
Proof.
  induction l as [|y l IH]; intros x; cbn [merge_all].
  - simpl. split; [tauto|]. intros (y & [] & _).
  - rewrite merge_In, IH. split.
    + intros [H|(z & I & H)]; [exists y|exists z]; simpl; auto.
    + intros (z & [<-|I] & H); [left; exact H|right; eauto].
Qed.

Lemma walk_below v : forall n, In n (walk v) <-> below n v.
Proof.
  unfold walk.
  induction v using pyval_rect'; intros n; try (simpl; split; [tauto|intros B; inversion B; subst; discriminate]).
  - cbn [levels]. rewrite merge_all_In. split.
    + intros (y & I & J). apply in_map_iff in I as (x & <- & I).
      apply (proj1 (proj1 (Forall_forall _ _) H x I n)) in J. eapply below_item; eauto.
    + intros B. inversion B; subst; [discriminate|]. exists (levels x). split.
      * apply in_map. assumption.
      * apply (proj1 (Forall_forall _ _) H x); assumption.
  - cbn [levels]. cbn [List.concat]. rewrite in_app_iff, merge_all_In. split.
    + intros [[<-|[]]|(y & I & J)]; [apply below_here; reflexivity|].
      apply in_map_iff in I as ([f x] & <- & I).
      apply (proj1 (proj1 (Forall_forall _ _) H (f, x) I n)) in J. eapply below_field; eauto.
    + intros B. inversion B; subst; [left; left; reflexivity|].
      right. exists (levels x). split; [apply in_map_iff; exists (f, x); auto|].
      apply (proj1 (Forall_forall _ _) H (f, x)); assumption.
Qed.

(** The names of a target are what its pruned walk stores. *)
Lemma target_bound v x : (exists m, In m (assign_target_walk v) /\ gives m x) <-> bound x v.
Proof.
  unfold assign_target_walk. induction v as [ |b|z|s|s|s|s| |l IH|k u p fs IH] using pyval_rect';
    try (cbn; split; [intros (m & [] & _)|intros B; inversion B as [w [[K _] _]| |]; discriminate]).
  - cbn [target_levels]. rewrite Forall_forall in IH. split.
    + intros (m & I & G). rewrite merge_all_In in I. destruct I as (y & I & J). apply in_map_iff in I as (w & <- & I).
      eapply bound_item; [exact I|]. apply (IH w I). eauto.
    + intros B. inversion B as [w [[K _] _]| |l' y I By]; subst; [discriminate|].
      apply (IH y I) in By as (m & J & G). exists m. split; [|exact G]. rewrite merge_all_In.
      exists (target_levels y). split; [apply in_map, I|exact J].
  - rewrite Forall_forall in IH.
    assert (Deep : (exists m, In m (List.concat (merge_all (map (fun fx => target_levels (snd fx)) fs))) /\ gives m x) <->
                   exists f y, In (f, y) fs /\ bound x y).
    { split.
      - intros (m & I & G). rewrite merge_all_In in I. destruct I as (y & I & J).
        apply in_map_iff in I as ([f w] & <- & I). exists f, w. split; [exact I|]. apply (IH _ I). eauto.
      - intros (f & y & I & By). apply (IH _ I) in By as (m & J & G). exists m. split; [|exact G].
        rewrite merge_all_In. exists (target_levels y). split; [|exact J].
        apply in_map_iff. exists (f, y). auto. }
    assert (Stop : k = KSubscript \/ k = KAttribute \/
                   target_levels (VNode k u p fs) = [VNode k u p fs] :: merge_all (map (fun fx => target_levels (snd fx)) fs)).
    { destruct k; auto. }
    destruct Stop as [->|[->|E]].
    + cbn. split; [intros (m & [] & _)|]. intros B. inversion B as [w [[K _] _]| |]; subst; [discriminate|congruence].
    + cbn. split; [intros (m & [] & _)|]. intros B. inversion B as [w [[K _] _]| |]; subst; [discriminate|congruence].
    + split.
      * rewrite E. cbn [List.concat]. intros (m & I & G). rewrite in_app_iff in I. destruct I as [[<-|[]]|I].
        { destruct G as [G|G]; [discriminate|]. apply bound_here, G. }
        assert (N : k <> KSubscript /\ k <> KAttribute) by (split; intros ->; discriminate).
        destruct (proj1 Deep (ex_intro _ m (conj I G))) as (f & y & J & By).
        exact (bound_field x k u p fs f y (proj1 N) (proj2 N) J By).
      * intros B. rewrite E. cbn [List.concat]. inversion B as [w S|k' u' p' fs' f y N1 N2 I By|]; subst.
        { exists (VNode k u p fs). split; [left; reflexivity|right; exact S]. }
        destruct (proj2 Deep (ex_intro _ f (ex_intro _ y (conj I By)))) as (m & J & G).
        exists m. split; [right; exact J|exact G].
Qed.

Lemma below_trans a b c : below a b -> below b c -> below a c.
Proof. intros A B. induction B; [exact A|eapply below_field; eauto|eapply below_item; eauto]. Qed.

Lemma relaxed_below d : is_relaxed_deco d = true -> exists m, below m (decorator_of d) /\ ~ plain m.
Proof.
  unfold is_relaxed_deco, decorator_of. intros H. apply existsb_exists in H as (m & I & N).
  apply walk_below in I. exists m. split; [exact I|].
  intros P. unfold plain_deco_node in N. apply negb_true_iff in N.
  apply orb_false_iff in N as [N N3]. apply orb_false_iff in N as [N1 N2].
  unfold plain, isa in P. destruct P as [P|[P|P]]; congruence.
Qed.

(** *** Replacement fields *)

Lemma format27_auto s : forall o, format27_search o s = true ->
  exists a b, s = a +++ "{}" +++ b /\ (a = "" -> o = false) /\ (forall c, a <> c +++ "{") /\ (forall c, b <> "}" +++ c).
Proof.
  induction s as [|c r IH]; intros o H; [discriminate|]. cbn [format27_search] in H.
  apply orb_true_iff in H as [H|H].
  - apply andb_true_iff in H as [H H2]. apply andb_true_iff in H as [H H1]. apply Ascii.eqb_eq in H as ->.
    apply negb_true_iff in H1 as ->. destruct r as [|d r2]; [discriminate|].
    apply andb_true_iff in H2 as [H2 H3]. apply Ascii.eqb_eq in H2 as ->.
    exists "", r2. repeat split; auto.
    + intros c E. destruct c; discriminate.
    + intros c E. subst r2. simpl in H3. discriminate.
  - destruct (IH _ H) as (a & b & -> & O & X & Y).
    exists (String c a), b. repeat split; auto; [discriminate|].
    intros c' E. destruct c' as [|d c']; simpl in E.
    + injection E as -> ->. specialize (O eq_refl). discriminate.
    + injection E as -> E. exact (X _ E).
Qed.

Lemma format27_auto_field t : format27_search false t = true -> auto_field t.
Proof. intros H. destruct (format27_auto _ _ H) as (a & b & E & _ & X & Y). exists a, b. auto. Qed.

(** *** Source text *)

Lemma skip_ws_bs_split s : exists w, s = w +++ skip_ws_bs s /\ blank_or_backslash w.
Proof.
  induction s as [|c r (w & E & B)]; simpl.
  - exists "". split; [reflexivity|]. intros a c b E. destruct a; discriminate.
  - destruct (is_space c || Ascii.eqb c bs) eqn:C.
    + exists (String c w). split; [simpl; f_equal; exact E|].
      intros a d b X. destruct a as [|x a]; simpl in X; injection X as <- X.
      * apply orb_true_iff in C as [C|C]; [left; exact C|right; apply Ascii.eqb_eq, C].
      * exact (B _ _ _ X).
    + exists "". split; [reflexivity|]. intros a d b X. destruct a; discriminate.
Qed.

Lemma lstrip_split s : exists w, s = w +++ lstrip s /\ blank w.
Proof.
  induction s as [|c r (w & E & B)]; simpl.
  - exists "". split; [reflexivity|]. intros a c b E. destruct a; discriminate.
  - destruct (is_space c) eqn:C.
    + exists (String c w). split; [simpl; f_equal; exact E|].
      intros a d b X. destruct a as [|x a]; simpl in X; injection X as <- X; [exact C|exact (B _ _ _ X)].
    + exists "". split; [reflexivity|]. intros a d b X. destruct a; discriminate.
Qed.

Lemma sdrop_app a b : sdrop (String.length a) (a +++ b) = b.
Proof. induction a; simpl; auto. Qed.

Lemma with_paren_at_split s : with_paren_at s = true ->
  exists w b, s = "with" +++ w +++ "(" +++ b /\ blank_or_backslash w.
Proof.
  unfold with_paren_at. intros H. apply andb_true_iff in H as [H1 H2].
  apply startswith_iff in H1 as (r & ->). change 4%nat with (String.length "with") in H2.
  rewrite sdrop_app in H2. destruct (skip_ws_bs_split r) as (w & E & B).
  apply startswith_iff in H2 as (b & X). rewrite X in E. exists w, b. rewrite E at 1. auto.
Qed.

Lemma with_paren_search_split s : forall i j, with_paren_search i s = Some j ->
  exists a w b, s = a +++ "with" +++ w +++ "(" +++ b /\ blank_or_backslash w /\ j = (i + String.length a)%nat.
Proof.
  induction s as [|c r IH]; intros i j H; cbn [with_paren_search] in H.
  - discriminate.
  - destruct (with_paren_at (String c r)) eqn:W.
    + injection H as <-. destruct (with_paren_at_split _ W) as (w & b & E & B).
      exists "", w, b. split; [exact E|]. split; [exact B|]. simpl. lia.
    + destruct (IH _ _ H) as (a & w & b & -> & B & ->). exists (String c a), w, b.
      split; [reflexivity|]. split; [exact B|]. simpl. lia.
Qed.

Lemma join_firstn sep l n : exists r, join sep l = join sep (firstn n l) +++ r.
Proof.
  revert n. induction l as [|x l IH]; intros n.
  - exists "". rewrite firstn_nil. reflexivity.
  - destruct n as [|n]; [exists (join sep (x :: l)); reflexivity|]. cbn [firstn].
    destruct (IH n) as (r & E). destruct l as [|y l].
    + exists "". rewrite firstn_nil. simpl. rewrite app_nil_s. reflexivity.
    + destruct (firstn n (y :: l)) as [|z f] eqn:F.
      * cbn [join]. eexists. reflexivity.
      * exists r. change (join sep (x :: y :: l)) with (x +++ sep +++ join sep (y :: l)).
        change (join sep (x :: z :: f)) with (x +++ sep +++ join sep (z :: f)).
        rewrite E, !app_assoc_s. reflexivity.
Qed.

Lemma somes_nth_error {A} (l : list A) : forall n i,
  somes (map (fun k => nth_error l (i + k)) (List.seq 0 n)) = firstn n (skipn i l).
Proof.
  induction n as [|n IH]; intros i; [reflexivity|].
  cbn [List.seq map]. rewrite <- seq_shift, map_map.
  rewrite (map_ext _ (fun k => nth_error l (S i + k))) by (intros; f_equal; lia).
  rewrite Nat.add_0_r. destruct (nth_error l i) as [x|] eqn:E.
  - cbn [somes]. rewrite IH. apply nth_error_split in E as (a & b & -> & <-).
    assert (S1 : skipn (List.length a) (a ++ x :: b) = x :: b).
    { rewrite skipn_app, skipn_all, Nat.sub_diag. reflexivity. }
    assert (S2 : skipn (S (List.length a)) (a ++ x :: b) = b).
    { clear. induction a as [|y a IHa]; [reflexivity|]. exact IHa. }
    rewrite S1, S2. reflexivity.
  - cbn [somes]. rewrite IH. apply nth_error_None in E. rewrite !skipn_all2 by lia. rewrite !firstn_nil. reflexivity.
Qed.

Lemma somes_map_none {A B} (f : A -> option B) l : (forall x, In x l -> f x = None) -> somes (map f l) = [].
Proof.
  induction l as [|x l IH]; intros H; [reflexivity|]. simpl. rewrite (H x (or_introl eq_refl)).
  apply IH. intros y I. apply H. right. exact I.
Qed.
Lemma somes_app {A} (a b : list (option A)) : somes (a ++ b) = somes a ++ somes b.
Proof. induction a as [|[x|] a IH]; simpl; congruence. Qed.

(** Lines have no line breaks, and the first line of a text made of lines is the first of them. *)
Definition no_break (s : string) : bool := sall (fun c => negb (is_linebreak c)) s.

Lemma no_break_snoc a c : no_break (a +++ chr c) = no_break a && negb (is_linebreak c).
Proof.
  unfold no_break. rewrite sall_app. f_equal. unfold sall, chr. simpl. rewrite orb_false_r.
  destruct (is_linebreak c); reflexivity.
Qed.

Lemma splitlines_no_break l : forall n s cur, (String.length s <= n)%nat -> no_break cur = true ->
  In l (splitlines_aux false cur s) -> no_break l = true.
Proof.
  induction n as [|n IH]; intros s cur L C I.
  - destruct s; [|simpl in L; lia]. simpl in I. destruct cur; [destruct I|]. destruct I as [<-|[]]. exact C.
  - destruct s as [|c r]; [simpl in I; destruct cur; [destruct I|]; destruct I as [<-|[]]; exact C|].
    cbn [splitlines_aux] in I. simpl in L. destruct (is_linebreak c) eqn:B.
    + destruct (Ascii.eqb c (ascii_of_nat 13)).
      * destruct r as [|d r']; [destruct I as [<-|[]]; exact C|].
        destruct (Ascii.eqb d (ascii_of_nat 10)); (destruct I as [<-|I]; [exact C|]).
        -- simpl in L. exact (IH r' "" ltac:(lia) eq_refl I).
        -- exact (IH (String d r') "" ltac:(simpl in *; lia) eq_refl I).
      * destruct I as [<-|I]; [exact C|]. exact (IH r "" ltac:(lia) eq_refl I).
    + refine (IH r _ ltac:(lia) _ I). rewrite no_break_snoc, C, B. reflexivity.
Qed.

Lemma splitlines_aux_pre l : forall cur r, no_break l = true ->
  splitlines_aux false cur (l +++ r) = splitlines_aux false (cur +++ l) r.
Proof.
  induction l as [|c l IH]; intros cur r N; [rewrite app_nil_s; reflexivity|].
  unfold no_break in N. change (String c l) with (chr c +++ l) in N. rewrite sall_app in N.
  apply andb_true_iff in N as [N1 N2].
  assert (B : is_linebreak c = false).
  { unfold sall, chr in N1. simpl in N1. destruct (is_linebreak c); [discriminate|reflexivity]. }
  rewrite app_cons_s. cbn [splitlines_aux]. rewrite B, IH by exact N2. f_equal.
  rewrite app_assoc_s. reflexivity.
Qed.

Lemma first_line l ls n l0 rest : no_break l = true ->
  splitlines (join nl (firstn n (l :: ls))) = l0 :: rest -> l0 = l.
Proof.
  intros N E. destruct n as [|n]; [discriminate|]. cbn [firstn] in E. unfold splitlines in E.
  destruct (firstn n ls) as [|x f].
  - cbn [join] in E. rewrite <- (app_nil_s l), splitlines_aux_pre in E by exact N. cbn in E.
    destruct l; [discriminate|]. injection E as <- _. reflexivity.
  - change (join nl (l :: x :: f)) with (l +++ nl +++ join nl (x :: f)) in E.
    rewrite splitlines_aux_pre in E by exact N. cbn in E. injection E as <- _. reflexivity.
Qed.

Section Texts.
  Variable e : env.

  Lemma source_lines_exact src line amount : e_source e = Some src ->
    source_lines e line amount = join nl (firstn (Z.to_nat (amount + 1) - Z.to_nat (1 - line)) (lines_from src line)).
  Proof.
    intros S. unfold source_lines, lines_from.
    set (k := Z.to_nat (1 - line)). set (N := Z.to_nat (amount + 1)).
    assert (L : forall i, source_line e (line + Z.of_nat i) 0 =
                if (i <? k)%nat then None
                else nth_error (splitlines src) (Z.to_nat (line - 1) + (i - k))).
    { intros i. unfold source_line. rewrite S. destruct (i <? k)%nat eqn:C.
      - apply Nat.ltb_lt in C. destruct (0 <? line + Z.of_nat i) eqn:Z0; [|reflexivity].
        apply Z.ltb_lt in Z0. unfold k in C. lia.
      - apply Nat.ltb_ge in C. assert (Z0 : (0 <? line + Z.of_nat i) = true) by (apply Z.ltb_lt; unfold k in C; lia).
        rewrite Z0. replace (Z.to_nat (line + Z.of_nat i - 1)) with (Z.to_nat (line - 1) + (i - k))%nat
          by (unfold k in *; lia).
        destruct (nth_error _ _); reflexivity. }
    f_equal. rewrite (map_ext _ _ L).
    destruct (le_lt_dec N k) as [C|C].
    - replace (N - k)%nat with 0%nat by lia. simpl. apply somes_map_none. intros i I. apply in_seq in I.
      replace (i <? k)%nat with true; [reflexivity|]. symmetry. apply Nat.ltb_lt. lia.
    - replace N with (k + (N - k))%nat at 1 by lia. rewrite seq_app, map_app, somes_app.
      rewrite somes_map_none.
      + cbn [app]. rewrite <- somes_nth_error. rewrite Nat.add_0_l.
        replace (List.seq k (N - k)) with (map (fun x => (k + x)%nat) (List.seq 0 (N - k))).
        2:{ assert (G : forall m j, map (fun x => (k + x)%nat) (List.seq j m) = List.seq (k + j) m).
            { induction m as [|m IH]; intros j; [reflexivity|]. cbn [List.seq map]. rewrite IH. f_equal.
              f_equal. lia. }
            rewrite G. f_equal. lia. }
        rewrite map_map. f_equal. apply map_ext. intros i.
        replace (k + i <? k)%nat with false by (symmetry; apply Nat.ltb_ge; lia).
        f_equal. lia.
      + intros i I. apply in_seq in I. replace (i <? k)%nat with true; [reflexivity|].
        symmetry. apply Nat.ltb_lt. lia.
  Qed.
  Lemma source_lines_prefix src line amount : e_source e = Some src ->
    exists n, source_lines e line amount = join nl (firstn n (lines_from src line)).
  Proof. intros S. eexists. exact (source_lines_exact src line amount S). Qed.

  Lemma except_star_text line col : is_except_star e line col = true -> except_star e line col.
  Proof.
    unfold is_except_star, source_line. destruct (e_source e) as [src|] eqn:S; [|discriminate].
    destruct (0 <? line) eqn:L; [|discriminate].
    destruct (nth_error (splitlines src) (Z.to_nat (line - 1))) as [l|] eqn:N; [|discriminate].
    cbn [option_map]. intros H. apply andb_true_iff in H as [H1 H2].
    apply startswith_iff in H1 as (r & E). rewrite E in H2.
    change 6%nat with (String.length "except") in H2. rewrite sdrop_app in H2.
    apply startswith_iff in H2 as (b & X). destruct (lstrip_split r) as (w & E2 & B).
    exists src, l, w, b. repeat split; auto; [apply Z.ltb_lt, L|]. rewrite E, E2, X at 1. reflexivity.
  Qed.

  Lemma with_paren_text line : has_with_paren e line = true -> with_paren e line.
  Proof.
    unfold has_with_paren. intros H.
    destruct (e_source e) as [src|] eqn:S.
    2:{ unfold source_lines, source_line in H. rewrite S in H.
        rewrite somes_map_none in H by reflexivity. discriminate. }
    destruct (source_lines_prefix src line (line + 10) S) as (n & E). rewrite E in H.
    destruct (with_paren_search 0 _) as [i|] eqn:W; [|discriminate].
    destruct (splitlines _) as [|l0 rest] eqn:L; [discriminate|]. apply Nat.ltb_lt in H.
    destruct (with_paren_search_split _ _ _ W) as (a & w & b & X & B & ->).
    destruct (lines_from src line) as [|l ls] eqn:F.
    { rewrite firstn_nil in W. discriminate. }
    assert (NB : no_break l = true).
    { assert (I : In l (splitlines src)).
      { unfold lines_from in F. rewrite <- (firstn_skipn (Z.to_nat (line - 1)) (splitlines src)), F.
        apply in_or_app. right. left. reflexivity. }
      exact (splitlines_no_break l _ src "" (le_n _) eq_refl I). }
    apply (first_line l ls n l0 rest NB) in L as ->.
    destruct (join_firstn nl (l :: ls) n) as (r & J).
    exists src, l, ls, a, w, (b +++ r). repeat split; auto.
    rewrite J, X, !app_assoc_s. reflexivity.
  Qed.
End Texts.

(** *** Dotted names *)

Section Dotted.
  Variable man : list (string * string).
  Variable v : pyval.

  Definition good_piece (p : string) : Prop := (exists m, below m v /\ writes m p) \/ In p builtin_types.
  Definition good_head (fn : list (option string)) : Prop :=
    match fn with [] => True | Some p :: _ => good_piece p | None :: _ => False end.

  Lemma good_app fn x : good_head fn -> good_piece x -> good_head (fn ++ [Some x]).
  Proof. destruct fn as [|[p|] r]; simpl; auto. Qed.
  Lemma good_coll n fn : In n builtin_types -> good_head fn -> good_head (gan_coll n fn).
  Proof. intros B G. unfold gan_coll. destruct (_ || _); [|exact G]. apply good_app; [exact G|right; exact B]. Qed.
  Lemma good_lit n fn : In n builtin_types -> good_head fn -> good_head (gan_lit n fn).
  Proof. intros B G. unfold gan_lit. destruct (_ || _); [|exact G]. apply good_app; [exact G|right; exact B]. Qed.
  Lemma good_num n fn fn' : (forall x, n = Some x -> In x builtin_types) -> good_head fn -> gan_num n fn = Ok fn' ->
    good_head fn'.
  Proof.
    intros B G E. unfold gan_num in E. destruct fn as [|q r].
    - destruct n as [x|]; [|discriminate]. injection E as <-. right. apply B. reflexivity.
    - destruct (negb (hd_is n (q :: r)) && (List.length (q :: r) =? 1)%nat); injection E as <-; exact G.
  Qed.

  Lemma builtin_In x : mem x builtin_types = true -> In x builtin_types.
  Proof. apply mem_In. Qed.

  Lemma gan_step_good acc n acc' : below n v -> good_head (fst acc) -> gan_step man acc n = Ok acc' ->
    good_head (fst acc').
  Proof.
    intros B G E. unfold gan_step in E. cbv zeta in E.
    destruct n as [| | | | | | | |l|k u p fs]; try (injection E as <-; exact G).
    destruct k; try (injection E as <-; exact G).
    - (* Attribute *)
      injection E as <-. cbn [fst].
      assert (G1 : good_head (fst acc ++ [Some (fstr "attr" fs)])).
      { apply good_app; [exact G|]. left. exists (VNode KAttribute u p fs). split; [exact B|].
        left. split; reflexivity. }
      destruct (name_id (fld "value" fs)); [|exact G1].
      destruct (fst acc) as [|[q|] r]; exact G1.
    - (* Call *)
      injection E as <-. cbn [fst]. destruct (name_id (fld "func" fs)) as [i|] eqn:N; [|exact G].
      apply good_app; [exact G|]. left. exists (VNode KCall u p fs). split; [exact B|].
      right. split; [reflexivity|]. change (attr "func" (VNode KCall u p fs)) with (fld "func" fs).
      destruct (fld "func" fs); try discriminate. destruct k; try discriminate. injection N as N.
      split; [reflexivity|exact N].
    - (* Constant *)
      destruct (snd acc || _); [injection E as <-; exact G|].
      destruct (fld "value" fs); try (injection E as <-; exact G).
      + destruct (gan_num (Some "int") (fst acc)) eqn:N; [|discriminate]. injection E as <-.
        refine (good_num _ _ _ _ G N). intros x X. injection X as <-. apply builtin_In. reflexivity.
      + destruct (gan_num (Some "float") (fst acc)) eqn:N; [|discriminate]. injection E as <-.
        refine (good_num _ _ _ _ G N). intros x X. injection X as <-. apply builtin_In. reflexivity.
      + destruct (gan_num None (fst acc)) eqn:N; [|discriminate]. injection E as <-.
        refine (good_num _ _ _ _ G N). discriminate.
      + injection E as <-. apply good_lit; [apply builtin_In; reflexivity|exact G].
      + injection E as <-. apply good_lit; [apply builtin_In; reflexivity|exact G].
    - injection E as <-. cbn [fst]. destruct (_ || _); [exact G|].
      apply good_coll; [apply builtin_In; reflexivity|exact G].
    - injection E as <-. cbn [fst]. destruct (_ || _); [exact G|].
      apply good_coll; [apply builtin_In; reflexivity|exact G].
    - injection E as <-. cbn [fst]. destruct (_ || _); [exact G|].
      apply good_coll; [apply builtin_In; reflexivity|exact G].
  Qed.

  Lemma gan_loop_good l : forall acc acc', (forall n, In n l -> below n v) -> good_head (fst acc) ->
    gan_loop man l acc = Ok acc' -> good_head (fst acc').
  Proof.
    induction l as [|n r IH]; intros acc acc' B G E; simpl in E.
    - injection E as <-. exact G.
    - destruct (gan_step man acc n) as [acc1|] eqn:S; [|discriminate]. simpl in E.
      refine (IH acc1 _ _ _ E).
      + intros m I. apply B. right. exact I.
      + exact (gan_step_good _ _ _ (B n (or_introl eq_refl)) G S).
  Qed.

  Lemma join_snoc sep l x : join sep (l ++ [x]) = x \/ exists a, join sep (l ++ [x]) = a +++ sep +++ x.
  Proof.
    induction l as [|y l IH]; [left; reflexivity|]. right. destruct l as [|z l].
    - exists y. reflexivity.
    - change (join sep ((y :: z :: l) ++ [x])) with (y +++ sep +++ join sep ((z :: l) ++ [x])).
      destruct IH as [->|(a & ->)]; [exists y; reflexivity|]. exists (y +++ sep +++ a).
      rewrite !app_assoc_s. reflexivity.
  Qed.

  (** The dotted name of a node ends with a name written in it, or is that of a builtin type, or is
      empty. *)
  Lemma dotted_attr_end d : dotted_attr man v = Ok d ->
    d = "" \/ exists p, good_piece p /\ (d = p \/ exists a, d = a +++ "." +++ p).
  Proof.
    unfold dotted_attr, get_attribute_name. intros E.
    destruct (gan_loop man (walk v) ([], false)) as [acc|] eqn:L; [|discriminate]. simpl in E. injection E as <-.
    assert (G : good_head (fst acc)).
    { refine (gan_loop_good (walk v) ([], false) acc _ I L). intros n W. apply walk_below, W. }
    destruct (fst acc) as [|[p|] r]; [left; reflexivity| |destruct G].
    right. exists p. split; [exact G|]. unfold dotted. simpl. rewrite somes_app. simpl. apply join_snoc.
  Qed.
End Dotted.

Lemma literal_mentioned man ann d : dotted_attr man ann = Ok d -> mem d ["Literal"; "typing.Literal"] = true ->
  mentions_literal ann.
Proof.
  intros E M. apply mem_In in M. destruct (dotted_attr_end _ _ _ E) as [->|(p & G & D)].
  { destruct M as [M|[M|[]]]; discriminate. }
  assert (P : identifier p -> p = "Literal").
  { intros [N X]. destruct D as [<-|(a & D)].
    - destruct M as [M|[M|[]]]; [auto|]. exfalso. exact (X "typing" "Literal" (eq_sym M)).
    - destruct M as [M|[M|[]]]; rewrite <- M in D; clear M.
      + exfalso. do 8 (destruct a as [|? a]; [discriminate D|try (injection D as _ D)]); discriminate D.
      + do 6 (destruct a as [|? a]; [discriminate D|injection D as _ D]).
        destruct a as [|? a]; [injection D as D; auto|injection D as _ D].
        exfalso. do 8 (destruct a as [|? a]; [discriminate D|try (injection D as _ D)]); discriminate D. }
  destruct G as [(m & B & W)|B].
  - right. exists m, p. auto.
  - exfalso. assert (I : identifier p).
    { unfold builtin_types in B. split; [intros ->; simpl in B; intuition discriminate|].
      intros a b Q. assert (C : contains "." p = true) by (apply contains_iff; eauto).
      simpl in B. repeat destruct B as [<-|B]; try discriminate C; contradiction. }
    specialize (P I) as ->. simpl in B. intuition discriminate.
Qed.

(** *** Operands *)

Lemma is_dict_maybe nr v : is_dict nr v = true -> maybe_dict v.
Proof.
  unfold is_dict. destruct v; try discriminate. destruct k; try discriminate; intros _; unfold maybe_dict, isa; simpl; tauto.
Qed.

Lemma resolve_full_name_maybe s v n : resolve_full_name s v = Ok (Some n) -> maybe_dict v.
Proof.
  unfold resolve_full_name. destruct v; try discriminate. destruct k; try discriminate; intros _;
    unfold maybe_dict, isa; simpl; tauto.
Qed.

Lemma dict_operand s v o l : resolve_full_name s v = Ok o -> is_dict (s_name_res s) v || in_types o l = true ->
  maybe_dict v.
Proof.
  intros R H. apply orb_true_iff in H as [H|H]; [exact (is_dict_maybe _ _ H)|].
  destruct o as [n|]; [|discriminate]. exact (resolve_full_name_maybe _ _ _ R).
Qed.

Lemma operand_name_kind s v n : operand_name s v = Ok (Some n) -> isa KName v \/ isa KAttribute v.
Proof.
  unfold operand_name. destruct v; try discriminate. destruct k; try discriminate; intros _; unfold isa; simpl; tauto.
Qed.

Lemma none_or_name_type s v : is_none_or_name s v = Ok true -> maybe_type v.
Proof.
  unfold is_none_or_name. destruct (is_none_node v) eqn:N; [intros _; left; apply none_node_literal, N|].
  destruct (operand_name s v) as [[n|]|] eqn:O; simpl; try discriminate. intros _. right.
  exact (operand_name_kind _ _ _ O).
Qed.

Lemma union_type_maybe s v : is_union_type s v = Ok true -> maybe_type v.
Proof.
  unfold is_union_type. destruct (operand_name s v) as [[n|]|] eqn:O; simpl; try discriminate. intros _. right.
  exact (operand_name_kind _ _ _ O).
Qed.

Lemma and_res_true a b : and_res a b = Ok true -> a = Ok true /\ b = Ok true.
Proof. unfold and_res. destruct a as [[|]|]; auto; discriminate. Qed.

Lemma is_no_line_false e l : is_no_line e l = false -> ~ In l (e_nolines e).
Proof.
  unfold is_no_line. intros E I. apply Bool.not_true_iff_false in E. apply E. apply existsb_exists.
  exists l. split; [exact I|apply Z.eqb_refl].
Qed.
Lemma is_no_line_true e l : In l (e_nolines e) -> is_no_line e l = true.
Proof. intros I. unfold is_no_line. apply existsb_exists. exists l. split; [exact I|apply Z.eqb_refl]. Qed.

Lemma first_deco_counted e decos l : first_deco_line e decos = Some l -> exists d, In d decos /\ counted e d.
Proof.
  unfold first_deco_line. intros F. apply find_some in F as [I N]. apply in_map_iff in I as (d & <- & I).
  exists d. split; [exact I|]. apply is_no_line_false, negb_true_iff, N.
Qed.

Lemma kw_arg_is n kw : n <> "" -> kw_arg_in [n] kw = true -> attr "arg" kw = VStr n.
Proof.
  unfold kw_arg_in, as_ostr. destruct (attr "arg" kw); try discriminate. intros _ M. apply mem_In in M.
  destruct M as [->|[]]. reflexivity.
Qed.

(** *** Date directives *)

Lemma last_digit_split s c r : last_digit s = Some (c, r) -> exists m, s = m +++ String c r /\ is_digit c = true.
Proof.
  revert c r. induction s as [|a s IH]; intros c r; [discriminate|]. cbn [last_digit].
  destruct (last_digit s) as [[c' r']|].
  - intros E. injection E as -> ->. destruct (IH _ _ eq_refl) as (m & -> & D). exists (String a m). auto.
  - destruct (is_digit a) eqn:D; [|discriminate]. intros E. injection E as -> ->. exists "". auto.
Qed.

Lemma digit_word c : is_digit c = true -> is_word c = true.
Proof. unfold is_word. intros ->. rewrite ?orb_true_r. reflexivity. Qed.

Lemma dir_class c : is_dir_class c = true -> is_digit c = true \/ is_space c = true \/ In c ["-"; "."; "#"; "+"]%char.
Proof.
  unfold is_dir_class. intros H. apply orb_true_iff in H as [H|H]; [apply orb_true_iff in H as [H|H]; auto|].
  right. right. apply existsb_exists in H as (x & I & E). apply Ascii.eqb_eq in E as ->. exact I.
Qed.

Lemma span_split f s w r : span f s = (w, r) -> s = w +++ r /\ forall p x q, w = p +++ String x q -> f x = true.
Proof.
  revert w r. induction s as [|a s IH]; intros w r; cbn [span].
  - intros E. injection E as <- <-. split; [reflexivity|]. intros [|b p] x q E; discriminate.
  - destruct (f a) eqn:F.
    + destruct (span f s) as [w' r']. intros E. injection E as <- <-. destruct (IH _ _ eq_refl) as (-> & A).
      split; [reflexivity|]. intros [|b p] x q E; cbn in E; injection E as -> E; [exact F|eapply A, E].
    + intros E. injection E as <- <-. split; [reflexivity|]. intros [|b p] x q E; discriminate.
Qed.

Lemma directive_split s d rest : directive_at s = Some (d, rest) ->
  exists m c b, s = m +++ d +++ b /\ (exists w, b = w +++ rest) /\ d = chr c /\ is_word c = true /\
  forall p x q, m = p +++ String x q -> is_digit x = true \/ is_space x = true \/ In x ["-"; "."; "#"; "+"]%char.
Proof.
  unfold directive_at. destruct (span is_dir_class s) as [m r] eqn:S. apply span_split in S as (-> & All).
  assert (Cl : forall m', (exists q, m = m' +++ q) -> forall p x q, m' = p +++ String x q ->
             is_digit x = true \/ is_space x = true \/ In x ["-"; "."; "#"; "+"]%char).
  { intros m' (q0 & ->) p x q ->. apply dir_class. apply (All p x (q +++ q0)). rewrite app_assoc_s. reflexivity. }
  assert (Back : match last_digit m with Some (d0, r0) => Some (chr d0, r0 +++ r) | None => None end = Some (d, rest) ->
    exists m' c b, m +++ r = m' +++ d +++ b /\ (exists w, b = w +++ rest) /\ d = chr c /\ is_word c = true /\
    forall p x q, m' = p +++ String x q -> is_digit x = true \/ is_space x = true \/ In x ["-"; "."; "#"; "+"]%char).
  { destruct (last_digit m) as [[c0 r0]|] eqn:L; [|discriminate]. intros E. injection E as <- <-.
    destruct (last_digit_split _ _ _ L) as (m' & Em & D). exists m', c0, (r0 +++ r). split; [|split; [|split; [|split]]].
    - rewrite Em, app_assoc_s. reflexivity.
    - exists "". reflexivity.
    - reflexivity.
    - apply digit_word, D.
    - apply Cl. exists (String c0 r0). exact Em. }
  destruct r as [|c r']; [exact Back|]. destruct (is_word c) eqn:W; [|exact Back].
  intros E. injection E as <- <-. exists m, c, r'. repeat split.
  - exists "". reflexivity.
  - exact W.
  - apply Cl. exists "". rewrite app_nil_s. reflexivity.
Qed.

Lemma find_directives_in t d : In d (find_directives t) -> directive_in t d.
Proof.
  unfold find_directives. generalize (String.length t). intros n. revert t.
  induction n as [|n IH]; intros [|c r]; cbn [find_directives_n]; try (intros []).
  assert (More : forall p r', r = p +++ r' -> directive_in r' d -> directive_in (String c r) d).
  { intros p r' -> (a & m & x & b & -> & D). exists (String c (p +++ a)), m, x, b. split; [|exact D].
    cbn. rewrite app_assoc_s. reflexivity. }
  destruct (Ascii.eqb c "%") eqn:P; [|intros I; apply (More "" r eq_refl), IH, I].
  apply Ascii.eqb_eq in P as ->. destruct (directive_at r) as [[g rest]|] eqn:D.
  - destruct (directive_split _ _ _ D) as (m & x & b & Er & (w & Eb) & Eg & W & Cl).
    intros [<-|I].
    + exists "", m, x, b. rewrite Er. auto.
    + apply (More (m +++ g +++ w) rest); [|apply IH, I]. rewrite Er, Eb, !app_assoc_s. reflexivity.
  - intros I; apply (More "" r eq_refl), IH, I.
Qed.
