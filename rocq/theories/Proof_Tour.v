(** What runs keep and what they can add. Lemmas for C37, C39, C42, C43. *)
From Verif Require Import PyBase PyLemmas Utility RulesData Rules Config Formats Paths AstKinds Ast State Visitor
  Spec_Base Spec_Visitor Proof_Shapes Proof_Runs Proof_Handlers Proof_Brackets.

(** ** Nodes *)

Lemma kind_listed k : nth_error all_kinds (N.to_nat (kind_id k)) = Some k.
Proof. destruct k; reflexivity. Qed.
Lemma kind_eqb_eq a b : kind_eqb a b = true <-> a = b.
Proof.
  unfold kind_eqb. rewrite N.eqb_eq. split; [|intros ->; reflexivity].
  intros E. pose proof (kind_listed a) as A. rewrite E, kind_listed in A. injection A as <-. reflexivity.
Qed.

Lemma own_node v n : own v n -> is_node n = true.
Proof. intros O. induction O; auto. Qed.

Lemma own_below v n : own v n -> below n v.
Proof.
  intros O. induction O.
  - apply below_here. reflexivity.
  - exact (below_field _ _ _ _ _ _ _ H0 IHO).
  - exact (below_item _ _ _ H IHO).
Qed.

Lemma fields_node v f x : In (f, x) (fields v) -> exists k u p fs, v = VNode k u p fs.
Proof. destruct v; simpl; try tauto. intros _. repeat eexists. Qed.

Lemma own_in_below v n : own_in v n -> below n v.
Proof.
  intros (f & x & I & O). destruct (fields_node _ _ _ I) as (k & u & p & fs & ->).
  exact (below_field _ _ _ _ _ _ _ I (own_below _ _ O)).
Qed.

Lemma inside_below v n : is_node v = true -> inside v n -> below n v.
Proof. intros N [->|O]; [apply below_here, N|apply own_in_below, O]. Qed.

Lemma isa_node k v : isa k v -> is_node v = true.
Proof. unfold isa, is_kind. destruct v; try discriminate. reflexivity. Qed.

Lemma isa_kind k v : isa k v -> exists u p fs, v = VNode k u p fs.
Proof.
  unfold isa, is_kind. destruct v; try discriminate. intros E. apply kind_eqb_eq in E as ->. repeat eexists.
Qed.

Lemma item_below f v y n : In y (items f v) -> below n y -> below n v.
Proof.
  unfold items, attr, fld. destruct v; simpl; try tauto. destruct (assoc f fs) as [w|] eqn:E; simpl; [|tauto].
  destruct w; simpl; try tauto. intros I B. apply assoc_In in E.
  exact (below_field _ _ _ _ _ _ _ E (below_item _ _ _ I B)).
Qed.

Lemma member_below v n b : In b (items "body" v) -> own_in b n -> below n v.
Proof. intros I O. exact (item_below _ _ _ _ I (own_in_below _ _ O)). Qed.

Lemma own_scope stops v n y : incl stops brackets -> own v n -> scope stops y n -> scope stops y v.
Proof.
  intros J O. induction O; intros S; [exact S| |].
  - apply scope_field with (f := f) (x := x); [intros I; exact (H (J _ I))|exact H0|exact (IHO S)].
  - exact (scope_item _ _ _ _ H (IHO S)).
Qed.

Lemma own_in_scope stops k u p fs n y : incl stops brackets -> ~ In k stops -> own_in (VNode k u p fs) n ->
  scope stops y n -> scope stops y (VNode k u p fs).
Proof.
  intros J N (f & x & I & O) S. apply scope_field with (f := f) (x := x); [exact N|exact I|].
  exact (own_scope _ _ _ _ J O S).
Qed.

Lemma inside_scope stops k v n y : incl stops brackets -> isa k v -> ~ In k stops -> inside v n ->
  scope stops y n -> scope stops y v.
Proof.
  intros J K N I S. destruct (isa_kind _ _ K) as (u & p & fs & ->).
  destruct I as [->|O]; [exact S|]. exact (own_in_scope _ _ _ _ _ _ _ J N O S).
Qed.

Lemma class_scope stops v n y : incl stops brackets -> ~ In KClassDef stops -> isa KClassDef v ->
  inside v n \/ (exists b, In b (items "body" v) /\ own_in b n) -> scope stops y n -> scope stops y v.
Proof.
  intros J N K [I|(b & I & f & x & If & O)] S; [exact (inside_scope _ _ _ _ _ J K N I S)|].
  destruct (isa_kind _ _ K) as (u & p & fs & ->).
  apply scope_member with (b := b) (f := f) (x := x); [exact I|exact If|]. exact (own_scope _ _ _ _ J O S).
Qed.

(** A node of a class that stops everything holds what is found inside it. *)
Lemma inside_held stops k k' v n y : incl stops brackets -> isa k v -> In k stops -> k <> k' -> k <> KClassDef ->
  inside v n -> isa k' y -> scope stops y n -> held stops y v.
Proof.
  intros J K I D C [->|(f & x & If & O)] Y S.
  - exfalso. destruct (isa_kind _ _ K) as (u & p & fs & ->). inversion S; subst.
    + unfold isa, is_kind in Y. apply kind_eqb_eq in Y. congruence.
    + contradiction.
    + congruence.
  - exists f, x. split; [exact If|]. exact (own_scope _ _ _ _ J O S).
Qed.

Lemma own_loose v n c : own v n -> loose c n -> loose c v.
Proof.
  intros O. induction O; intros L; [exact L| |].
  - apply loose_field with (f := f) (x := x); [|exact H0|exact (IHO L)].
    intros ->. exfalso. apply H. unfold brackets. simpl. tauto.
  - exact (loose_item _ _ _ H (IHO L)).
Qed.

Lemma inside_loose k v n c : isa k v -> k <> KSubscript -> inside v n -> loose c n -> loose c v.
Proof.
  intros K N I L. destruct (isa_kind _ _ K) as (u & p & fs & ->). destruct I as [->|(f & x & If & O)]; [exact L|].
  apply loose_field with (f := f) (x := x); [congruence|exact If|exact (own_loose _ _ _ O L)].
Qed.

Lemma class_loose v n c : isa KClassDef v ->
  inside v n \/ (exists b, In b (items "body" v) /\ own_in b n) -> loose c n -> loose c v.
Proof.
  intros K [I|(b & I & f & x & If & O)] L; [apply (inside_loose KClassDef v n c K); [discriminate|exact I|exact L]|].
  destruct (isa_kind _ _ K) as (u & p & fs & ->).
  apply loose_member with (b := b) (f := f) (x := x); [exact I|exact If|exact (own_loose _ _ _ O L)].
Qed.

(** ** What runs keep *)

Section Keep.
  Variable e : env.
  Notation runs := (runs e).

  Definition same (s s' : st) : Prop :=
    s_depth s' = s_depth s /\ s_seen_for s' = s_seen_for s /\ s_seen_while s' = s_seen_while s /\
    s_try_finally s' = s_try_finally s.

  Lemma runs_same T s s' : runs T s s' -> same s s'.
  Proof.
    unfold same. intros R. induction R; unfold push_frame, pop_frame, raise_flag in *; cbn in *;
      try (repeat split; reflexivity); try tauto;
      repeat match goal with H : _ /\ _ |- _ => destruct H end;
      repeat split; try congruence; try lia.
    rewrite H5. apply removelast_last.
  Qed.

  (** Lists that only grow. *)
  Lemma runs_grow T s s' : runs T s s' ->
    incl (s_ellipsis s) (s_ellipsis s') /\ incl (s_flags s) (s_flags s') /\ incl (s_modules s) (s_modules s') /\
    incl (s_members s) (s_members s') /\ incl (s_kwargs s) (s_kwargs s').
  Proof.
    intros R. induction R; unfold push_frame, pop_frame, raise_flag in *; cbn in *;
      repeat match goal with H : _ /\ _ |- _ => destruct H end;
      repeat split; eauto using incl_refl, incl_tran, incl_appl, incl_appr, incl_tl.
  Qed.

  Lemma final_scope stops v n y : incl stops brackets -> ~ In KTry stops -> isa KTry v ->
    (exists x, In x (items "finalbody" v) /\ own x n) -> scope stops y n -> scope stops y v.
  Proof.
    intros J N K (x & I & O) S. destruct (isa_kind _ _ K) as (u & p & fs & ->).
    unfold items, attr, fld in I. simpl in I. destruct (assoc "finalbody" fs) as [w|] eqn:E; [|destruct I].
    destruct w; simpl in I; try destruct I.
    - apply scope_field with (f := "finalbody") (x := VList l); [exact N|exact (assoc_In _ _ _ E)|].
      apply scope_item with (x := x); [exact I|]. exact (own_scope _ _ _ _ J O S).
  Qed.

  Ltac outside := unfold yield_stops, await_stops, loops; simpl; intuition discriminate.
  Ltac within := unfold yield_stops, await_stops, loops, brackets; intros ? ; simpl; tauto.
  Ltac lift_scope J :=
    match goal with
    | H : ?T ?n, K : isa ?k ?n, I : inside ?n ?m |- _ =>
        exists n; eexists; split; [exact H|]; split; [apply (inside_scope _ k n m _ J K); [outside|exact I|eassumption]|assumption]
    | H : ?T ?n, K : isa ?k ?n, I : own_in ?n ?m |- _ =>
        exists n; eexists; split; [exact H|]; split; [apply (inside_scope _ k n m _ J K); [outside|right; exact I|eassumption]|assumption]
    | H : ?T ?n, K : isa KTry ?n, I : exists _, _ |- _ =>
        exists n; eexists; split; [exact H|]; split; [eapply (final_scope _ n _ _ J); [outside|exact K|exact I|eassumption]|assumption]
    | H : ?T ?n, K : isa KClassDef ?n, I : inside ?n ?m \/ _ |- _ =>
        exists n; eexists; split; [exact H|]; split; [eapply (class_scope _ n _ _ J); [outside|exact K|exact I|eassumption]|assumption]
    end.

  Lemma runs_yield T s s' : runs T s s' -> s_seen_yield s < s_seen_yield s' ->
    exists n y, T n /\ scope yield_stops y n /\ isa KYield y.
  Proof.
    assert (J : incl yield_stops brackets) by within.
    intros R. induction R; unfold push_frame, pop_frame, raise_flag in *; cbn in *; intros L; try lia; auto.
    - destruct (Z_lt_ge_dec (s_seen_yield s1) (s_seen_yield s2)); [auto|]. apply IHR2. lia.
    - destruct (IHR L) as (m & y & I & S & Y). exists m, y. auto.
    - destruct (IHR L) as (m & y & I & S & Y). exists m, y. auto.
    - exists n, n. split; [exact H|]. split; [apply scope_here, isa_node with (k := KYield), H0|exact H0].
    - destruct (IHR L) as (m & y & I & S & Y). lift_scope J.
    - destruct (IHR L) as (m & y & I & S & Y). destruct H0; lift_scope J.
    - destruct (IHR L) as (m & y & I & S & Y). lift_scope J.
    - destruct (IHR L) as (m & y & I & S & Y). lift_scope J.
    - destruct (IHR L) as (m & y & I & S & Y). lift_scope J.
    - destruct (IHR L) as (m & y & I & S & Y). lift_scope J.
    - destruct (IHR L) as (m & y & I & S & Y). lift_scope J.
    - destruct (IHR L) as (m & y & I & S & Y). lift_scope J.
    - destruct (IHR L) as (m & y & I & S & Y). lift_scope J.
  Qed.

  Lemma runs_await T s s' : runs T s s' -> s_seen_await s < s_seen_await s' ->
    exists n y, T n /\ scope await_stops y n /\ isa KAwait y.
  Proof.
    assert (J : incl await_stops brackets) by within.
    intros R. induction R; unfold push_frame, pop_frame, raise_flag in *; cbn in *; intros L; try lia; auto.
    - destruct (Z_lt_ge_dec (s_seen_await s1) (s_seen_await s2)); [auto|]. apply IHR2. lia.
    - destruct (IHR L) as (m & y & I & S & Y). exists m, y. auto.
    - destruct (IHR L) as (m & y & I & S & Y). exists m, y. auto.
    - exists n, n. split; [exact H|]. split; [apply scope_here, isa_node with (k := KAwait), H0|exact H0].
    - destruct (IHR L) as (m & y & I & S & Y). lift_scope J.
    - destruct (IHR L) as (m & y & I & S & Y). destruct H0; lift_scope J.
    - destruct (IHR L) as (m & y & I & S & Y). lift_scope J.
    - destruct (IHR L) as (m & y & I & S & Y). lift_scope J.
    - destruct (IHR L) as (m & y & I & S & Y). lift_scope J.
    - destruct (IHR L) as (m & y & I & S & Y). lift_scope J.
    - destruct (IHR L) as (m & y & I & S & Y). lift_scope J.
    - destruct (IHR L) as (m & y & I & S & Y). lift_scope J.
    - destruct (IHR L) as (m & y & I & S & Y). lift_scope J.
  Qed.

  (** Ellipses. *)
  Lemma slice_known c v : isa KSubscript v -> constant VEllipsis c -> direct_slice c v ->
    In (uid_of c) (slice_ellipses (attr "slice" v)).
  Proof.
    intros K E D. apply ellipsis_node_constant in E. unfold slice_ellipses. apply in_or_app.
    destruct D as [->|[Tu I]]; [left; rewrite E; left; reflexivity|]. right. rewrite Tu.
    apply in_map, filter_In. auto.
  Qed.

  Ltac lift_loose :=
    match goal with
    | H : ?T ?n, K : isa ?k ?n, I : inside ?n ?m |- exists _ _, _ =>
        exists n; eexists; split; [exact H|]; split; [eapply (inside_loose k n m _ K); [discriminate|exact I|eassumption]|auto]
    | H : ?T ?n, K : isa ?k ?n, I : own_in ?n ?m |- exists _ _, _ =>
        exists n; eexists; split; [exact H|]; split; [eapply (inside_loose k n m _ K); [discriminate|right; exact I|eassumption]|auto]
    | H : ?T ?n, K : isa KClassDef ?n, I : inside ?n ?m \/ _ |- exists _ _, _ =>
        exists n; eexists; split; [exact H|]; split; [eapply (class_loose n m _ K); [exact I|eassumption]|auto]
    end.

  Lemma runs_ellipsis T s s' : runs T s s' -> In FEllipsis (s_flags s') ->
    In FEllipsis (s_flags s) \/
    exists n c, T n /\ loose c n /\ constant VEllipsis c /\ ~ In (uid_of c) (s_ellipsis s).
  Proof.
    intros R. induction R; unfold push_frame, pop_frame, raise_flag in *; cbn in *; intros L; auto.
    - destruct (IHR2 L) as [L'|(n & c & A & B & C & D)]; [auto|]. right. exists n, c. split; [exact A|]. split; [exact B|]. split; [exact C|].
      intros I. apply D. exact (proj1 (runs_grow _ _ _ R1) _ I).
    - destruct L as [->|L]; [|auto]. exfalso. inversion H0.
    - destruct L as [_|L]; [|auto]. right. exists n, n. split; [exact H|]. split; [|auto].
      apply loose_here, isa_node with (k := KConstant), H0.
    - destruct L as [L|L]; [discriminate|auto].
    - destruct L as [L|L]; [discriminate|]. destruct (IHR L) as [|(m & y & I & S & Y)]; [auto|]. right. exists m, y. auto.
    - destruct L as [L|L]; [discriminate|]. destruct (IHR L) as [|(m & y & I & S & Y)]; [auto|]. right. exists m, y. auto.
    - destruct (IHR L) as [|(m & y & I & S & Y)]; [auto|]. right. lift_loose.
    - destruct (IHR L) as [|(m & y & I & S & Y)]; [auto|]. right. lift_loose.
    - destruct (IHR L) as [|(m & y & I & S & Y)]; [auto|]. right. lift_loose.
    - destruct (IHR L) as [|(m & y & I & S & Y)]; [auto|]. right. destruct H0; lift_loose.
    - destruct (IHR L) as [|(m & y & I & S & Y)]; [auto|]. right. lift_loose.
    - (* finally *) destruct (IHR L) as [|(m & y & (x & Ix & O) & S & Y)]; [auto|]. right.
      exists n, y. split; [exact H|]. split; [|exact Y]. destruct (isa_kind _ _ H0) as (u & p & fs & ->).
      unfold items, attr, fld in Ix. simpl in Ix. destruct (assoc "finalbody" fs) as [w|] eqn:E; [|destruct Ix].
      destruct w; simpl in Ix; try destruct Ix.
      apply loose_field with (f := "finalbody") (x := VList l); [congruence|exact (assoc_In _ _ _ E)|].
      exact (loose_item _ _ _ Ix (own_loose _ _ _ O S)).
    - destruct (IHR L) as [|(m & y & I & S & Y)]; [auto|]. right. lift_loose.
    - (* subscript *) destruct (IHR L) as [|(m & y & (f & x & If & O) & S & C & D)]; [auto|]. right.
      exists n, y. split; [exact H|]. split; [|split; [exact C|intros I; apply D, in_or_app; left; exact I]].
      destruct (isa_kind _ _ H0) as (u & p & fs & ->).
      apply loose_field with (f := f) (x := x); [|exact If|exact (own_loose _ _ _ O S)].
      intros _ Ds. apply D, in_or_app. right. exact (slice_known _ _ H0 C Ds).
    - destruct (IHR L) as [|(m & y & I & S & Y)]; [auto|]. right. lift_loose.
    - destruct (IHR L) as [|(m & y & I & S & Y)]; [auto|]. right. lift_loose.
    - destruct (IHR L) as [|(m & y & I & S & Y)]; [auto|]. right. lift_loose.
  Qed.

  (** The other features. *)
  Definition framed (s : st) : Prop :=
    Forall (fun fw => fst fw <= s_seen_for s /\ snd fw <= s_seen_while s) (s_try_finally s).
  Definition in_finally (s : st) : Prop :=
    exists l, s_try_finally s = l ++ [(s_seen_for s, s_seen_while s)].

  Lemma same_framed s s' : same s s' -> framed s -> framed s'.
  Proof. unfold same, framed. intros (_ & -> & -> & ->). auto. Qed.
  Lemma same_in_finally s s' : same s s' -> in_finally s' -> in_finally s.
  Proof. unfold same, in_finally. intros (_ & -> & -> & ->). auto. Qed.

  Definition found (T : pyval -> Prop) (f : flag) : Prop := exists n m, T n /\ below m n /\ shows e f m.
  Definition pending (T : pyval -> Prop) (f : flag) (s : st) : Prop :=
    f = FContinueInFinally /\ in_finally s /\ exists n c, T n /\ scope loops c n /\ isa KContinue c.

  Lemma found_up (T T' : pyval -> Prop) f n : T n -> (forall m, T' m -> below m n) -> found T' f -> found T f.
  Proof.
    intros H B (m & x & I & X & S). exists n, x. split; [exact H|]. split; [|exact S].
    exact (below_trans _ _ _ X (B _ I)).
  Qed.

  Lemma runs_flags T s s' f : runs T s s' -> framed s -> In f (s_flags s') -> f <> FEllipsis ->
    In f (s_flags s) \/ found T f \/ pending T f s.
  Proof.
    assert (J : incl loops brackets) by within.
    intros R F L N. revert F L. induction R; intros F L;
      unfold push_frame, pop_frame, raise_flag in *; cbn in *; auto.
    - (* cat *) pose proof (runs_same _ _ _ R1) as Sm.
      destruct (IHR2 (same_framed _ _ Sm F) L) as [L'|[X|(A & B & C)]]; auto.
      right. right. split; [exact A|]. split; [exact (same_in_finally _ _ Sm B)|exact C].
    - (* flag *) destruct L as [<-|L]; [|auto]. right. left. exists n, n. split; [exact H|].
      split; [|apply sh_simple, H0]. apply below_here.
      clear - H0. inversion H0; subst;
        repeat match goal with
        | K : isa _ n |- _ => exact (isa_node _ _ K)
        | K : _ \/ _ |- _ => destruct K
        | K : function_def n |- _ => destruct K
        | K : with_stmt n |- _ => destruct K
        | K : named _ n |- _ => destruct K
        | K : constant _ n |- _ => destruct K
        | K : calls _ n |- _ => destruct K
        end.
    - destruct L as [L|L]; [congruence|auto].
    - (* continue *) destruct L as [<-|L]; [|auto]. right. right. split; [reflexivity|].
      split; [exists l; exact H1|]. exists n, n. split; [exact H|]. split; [|exact H0].
      apply scope_here. exact (isa_node _ _ H0).
    - (* await in comprehension *) destruct L as [<-|L].
      + right. left. exists n, n. split; [apply H; left; reflexivity|]. split; [apply below_here, (isa_node _ _ H0)|].
        destruct (runs_await _ _ _ R H1) as (m & y & I & S & Y).
        apply sh_await_in_comp with (w := y); [exact H0| |exact Y].
        apply (inside_held await_stops Kcomprehension KAwait n m y);
          [within|exact H0|unfold await_stops; simpl; tauto|discriminate|discriminate|exact I|exact Y|exact S].
      + destruct (IHR F L) as [X|[(m & x & I & X)|(A & B & m & c & I & C)]]; [auto|..].
        * right. left. exists m, x. auto.
        * right. right. split; [exact A|]. split; [exact B|]. exists m, c. auto.
    - (* async generator *) destruct L as [<-|L].
      + right. left. exists n, n. split; [apply H; left; reflexivity|]. split; [apply below_here, (isa_node _ _ H0)|].
        destruct (runs_yield _ _ _ R H2) as (m & y & I & S & Y).
        destruct (runs_await _ _ _ R H3) as (m' & w & I' & S' & W).
        apply sh_async_generator with (y := y) (w := w); [exact H0|exact H1| |exact Y| |exact W].
        * apply (inside_held yield_stops KAsyncFunctionDef KYield n m y);
          [within|exact H0|unfold yield_stops; simpl; tauto|discriminate|discriminate|exact I|exact Y|exact S].
        * apply (inside_held await_stops KAsyncFunctionDef KAwait n m' w);
          [within|exact H0|unfold await_stops; simpl; tauto|discriminate|discriminate|exact I'|exact W|exact S'].
      + destruct (IHR F L) as [X|[(m & x & I & X)|(A & B & m & c & I & C)]]; [auto|..].
        * right. left. exists m, x. auto.
        * right. right. split; [exact A|]. split; [exact B|]. exists m, c. auto.
    - (* function *) destruct (IHR F L) as [X|[X|(A & B & m & c & I & S & Y)]]; [auto|..]; right.
      + left. refine (found_up _ _ _ n H _ X). intros m. apply inside_below, (isa_node _ _ H0).
      + right. split; [exact A|]. split; [exact B|]. lift_scope J.
    - (* async function *) destruct (IHR F L) as [X|[X|(A & B & m & c & I & S & Y)]]; [auto|..]; right.
      + left. refine (found_up _ _ _ n H _ X). intros m. apply inside_below, (isa_node _ _ H0).
      + right. split; [exact A|]. split; [exact B|]. lift_scope J.
    - (* comprehension *) destruct (IHR F L) as [X|[X|(A & B & m & c & I & S & Y)]]; [auto|..]; right.
      + left. refine (found_up _ _ _ n H _ X). intros m. apply inside_below, (isa_node _ _ H0).
      + right. split; [exact A|]. split; [exact B|]. lift_scope J.
    - (* for *) assert (F' : framed (u_seen_for (s_seen_for s + 1) s)).
      { unfold framed in *. cbn. eapply Forall_impl; [|exact F]. cbn. intros fw. lia. }
      destruct (IHR F' L) as [X|[X|(A & (l & B) & _)]]; [auto|..].
      + right. left. refine (found_up _ _ _ n H _ X). intros m. apply inside_below.
        destruct H0 as [H0|H0]; exact (isa_node _ _ H0).
      + exfalso. cbn in B. unfold framed in F. rewrite B, Forall_app in F. destruct F as [_ F].
        inversion F as [|? ? [F1 _] _]. cbn in F1. lia.
    - (* while *) assert (F' : framed (u_seen_while (s_seen_while s + 1) s)).
      { unfold framed in *. cbn. eapply Forall_impl; [|exact F]. cbn. intros fw. lia. }
      destruct (IHR F' L) as [X|[X|(A & (l & B) & _)]]; [auto|..].
      + right. left. refine (found_up _ _ _ n H _ X). intros m. apply inside_below, (isa_node _ _ H0).
      + exfalso. cbn in B. unfold framed in F. rewrite B, Forall_app in F. destruct F as [_ F].
        inversion F as [|? ? [_ F1] _]. cbn in F1. lia.
    - (* finally *)
      assert (F' : framed (u_try_finally (s_try_finally s ++ [(s_seen_for s, s_seen_while s)]) s)).
      { unfold framed in *. cbn. rewrite Forall_app. split; [exact F|]. constructor; [|constructor]. cbn. lia. }
      destruct (IHR F' L) as [X|[X|(A & _ & m & c & (x & Ix & O) & S & Y)]]; [auto|..]; right; left.
      + refine (found_up _ _ _ n H _ X). intros m (x & I & O). exact (item_below _ _ _ _ I (own_below _ _ O)).
      + exists n, n. split; [exact H|]. split; [apply below_here, (isa_node _ _ H0)|]. subst f.
        apply sh_continue with (x := x) (c := c); [exact H0|exact H1|exact Ix| |exact Y].
        exact (own_scope _ _ _ _ J O S).
    - (* try *) destruct (IHR F L) as [X|[X|(A & B & m & c & I & S & Y)]]; [auto|..]; right.
      + left. refine (found_up _ _ _ n H _ X). intros m. apply own_in_below.
      + right. split; [exact A|]. split; [exact B|]. lift_scope J.
    - (* subscript *) destruct (IHR F L) as [X|[X|(A & B & m & c & I & S & Y)]]; [auto|..]; right.
      + left. refine (found_up _ _ _ n H _ X). intros m. apply own_in_below.
      + right. split; [exact A|]. split; [exact B|]. lift_scope J.
    - (* call *) destruct (IHR F L) as [X|[X|(A & B & m & c & I & S & Y)]]; [auto|..]; right.
      + left. refine (found_up _ _ _ n H _ X). intros m. apply inside_below, (isa_node _ _ H0).
      + right. split; [exact A|]. split; [exact B|]. lift_scope J.
    - destruct (IHR F L) as [X|[X|(A & B & m & c & I & S & Y)]]; [auto|..]; right.
      + left. refine (found_up _ _ _ n H _ X). intros m. apply inside_below, (isa_node _ _ H0).
      + right. split; [exact A|]. split; [exact B|]. lift_scope J.
    - (* class *) destruct (IHR F L) as [X|[X|(A & B & m & c & I & S & Y)]]; [auto|..]; right.
      + left. refine (found_up _ _ _ n H _ X).
        intros m [I|(b & I & O)]; [apply inside_below, I; exact (isa_node _ _ H0)|exact (member_below _ _ _ I O)].
      + right. split; [exact A|]. split; [exact B|]. lift_scope J.
  Qed.
End Keep.
