(** What a tour can do to a state, as a relation: every visit is a run of single steps and brackets,
    each at a node of the tree. Lemmas for C37, C39, C40, C42, C43. *)
From Verif Require Import PyBase PyLemmas Utility RulesData Rules Config Formats Paths AstKinds Ast State Visitor
  Spec_Base Spec_Visitor Spec_Places Proof_Shapes.

(** Nodes whose visit brackets that of their children. *)
Definition brackets : list kind :=
  [KFunctionDef; KAsyncFunctionDef; Kcomprehension; KFor; KAsyncFor; KWhile; KTry; KSubscript; KCall; KClassDef].

(** [own v n]: [n] occurs in [v] with no bracket on the way. *)
Inductive own : pyval -> pyval -> Prop :=
| own_here k u p fs : own (VNode k u p fs) (VNode k u p fs)
| own_field k u p fs f x n : ~ In k brackets -> In (f, x) fs -> own x n -> own (VNode k u p fs) n
| own_item l x n : In x l -> own x n -> own (VList l) n.

Definition own_in (v n : pyval) : Prop := exists f x, In (f, x) (fields v) /\ own x n.
Definition inside (v n : pyval) : Prop := n = v \/ own_in v n.

(** The dotted name a call is made by. *)
Definition callee (n : pyval) (g : string) : Prop :=
  (isa KName (attr "func" n) /\ as_str (attr "id" (attr "func" n)) = g) \/
  (isa KAttribute (attr "func" n) /\ exists man, dotted_attr man (attr "func" n) = Ok g).

(** A member is used, possibly through a variable with the name of an attribute. *)
Definition member_used (n : pyval) (m : string) (s : st) : Prop :=
  member_use n m \/ (isa KAttribute n /\ In (as_str (attr "attr" n)) (map fst (s_name_res s))).

Section Runs.
  Variable e : env.
  Notation cfg := (e_cfg e).

  Definition push_frame (s : st) : st := u_try_finally (s_try_finally s ++ [(s_seen_for s, s_seen_while s)]) s.
  Definition pop_frame (s : st) : st := u_try_finally (removelast (s_try_finally s)) s.
  Definition raise_flag (f : flag) (s : st) : st := u_flags (f :: s_flags s) s.

  Inductive runs : (pyval -> Prop) -> st -> st -> Prop :=
  | r_nil T s : runs T s s
  | r_cat T s1 s2 s3 : runs T s1 s2 -> runs T s2 s3 -> runs T s1 s3
  | r_out T o s : runs T s (u_out o s)
  | r_lc (T : pyval -> Prop) n x l c s : T n -> says_st s n x l -> runs T s (u_lcs ((EStr x, (l, c)) :: s_lcs s) s)
  | r_lc_kw T f k l c s : runs T s (u_lcs ((EKw f k, (l, c)) :: s_lcs s) s)
  | r_line T l s : runs T s (u_line l s)
  | r_depth T s s1 : runs T (u_depth (s_depth s + 1) s) s1 -> runs T s (u_depth (s_depth s1 - 1) s1)
  | r_flag (T : pyval -> Prop) n f s : T n -> simple e f n -> runs T s (raise_flag f s)
  | r_ellipsis_flag (T : pyval -> Prop) n s : T n -> constant VEllipsis n -> ~ In (uid_of n) (s_ellipsis s) ->
      runs T s (raise_flag FEllipsis s)
  | r_continue (T : pyval -> Prop) n s l : T n -> isa KContinue n ->
      s_try_finally s = l ++ [(s_seen_for s, s_seen_while s)] -> runs T s (raise_flag FContinueInFinally s)
  | r_await_comp (T : pyval -> Prop) n s s1 : (forall m, inside n m -> T m) -> isa Kcomprehension n -> runs (inside n) s s1 ->
      s_seen_await s < s_seen_await s1 -> runs T s (raise_flag FAwaitInComprehension s1)
  | r_async_gen (T : pyval -> Prop) n s s1 : (forall m, inside n m -> T m) -> isa KAsyncFunctionDef n -> counted e n ->
      runs (inside n) s s1 ->
      s_seen_yield s < s_seen_yield s1 -> s_seen_await s < s_seen_await s1 ->
      runs T s (raise_flag FAsyncGenerator s1)
  | r_module (T : pyval -> Prop) n m s : T n -> module_use n m -> ~ In m (s_user_defs s) -> is_excluded cfg m = false ->
      runs T s (u_modules (s_modules s ++ [m]) s)
  | r_member (T : pyval -> Prop) n m s : T n -> member_used n m s -> ~ In m (s_user_defs s) -> is_excluded cfg m = false -> has_key m mod_mem_reqs_x = true ->
      runs T s (u_members (s_members s ++ [m]) s)
  | r_kwarg (T : pyval -> Prop) n g k s : T n -> isa Kkeyword n -> as_ostr (attr "arg" n) = k -> In g (s_fns s) ->
      ~ In (kw_function s g) (s_user_defs s) -> is_excluded_kwarg cfg (kw_function s g) (kw_text k) = false ->
      runs T s (u_kwargs (s_kwargs s ++ [(kw_function s g, k)]) s)
  | r_ufd (T : pyval -> Prop) n d s : T n -> decorated n -> ~ In d (s_user_defs s) -> is_excluded cfg d = false -> has_key d decorator_user_functions = true ->
      runs T s (u_ufds (s_ufds s ++ [d]) s)
  | r_strftime (T : pyval -> Prop) n d s : T n -> strftime_use n d -> runs T s (u_strftimes (s_strftimes s ++ [d]) s)
  | r_bytesdir (T : pyval -> Prop) n b d s : T n -> constant (VBytes b) n -> directive_in (const_text (VBytes b)) d ->
      runs T s (u_bytesdirs (s_bytesdirs s ++ [d]) s)
  | r_typecode (T : pyval -> Prop) n d s : T n -> typecode_use (ali_st s) n d -> runs T s (u_typecodes (s_typecodes s ++ [d]) s)
  | r_ceh (T : pyval -> Prop) n v s : T n -> handler_use (imp_st s) (ali_st s) n v -> is_excluded_ceh cfg (const_text v) = false ->
      runs T s (u_cehs (s_cehs s ++ [v]) s)
  | r_cenc (T : pyval -> Prop) n v s : T n -> encoding_use (imp_st s) (ali_st s) n v -> is_excluded_ce cfg (const_text v) = false ->
      runs T s (u_cencs (s_cencs s ++ [v]) s)
  | r_import_mem_mod (T : pyval -> Prop) n p x s : T n -> imports_from n p x ->
      runs T s (u_import_mem_mod (dict_set x p (s_import_mem_mod s)) s)
  | r_name_res (T : pyval -> Prop) n a b s : T n -> assigns n a -> runs T s (u_name_res (dict_set a b (s_name_res s)) s)
  | r_name_res_type T x s : runs T s (u_name_res_type x s)
  | r_module_as_name (T : pyval -> Prop) n a m s : T n -> aliases n a m ->
      runs T s (u_module_as_name (dict_set a m (s_module_as_name s)) s)
  | r_user_def (T : pyval -> Prop) n x s : T n -> defines n x -> runs T s (u_user_defs (set_add x (s_user_defs s)) s)
  | r_await (T : pyval -> Prop) n s : T n -> isa KAwait n -> runs T s (u_seen_await (s_seen_await s + 1) s)
  | r_yield (T : pyval -> Prop) n s : T n -> isa KYield n -> runs T s (u_seen_yield (s_seen_yield s + 1) s)
  | r_scoped T s s1 : runs T s s1 -> runs T s (u_user_defs (s_user_defs s) s1)
  | r_function (T : pyval -> Prop) n s s1 : T n -> isa KFunctionDef n -> runs (inside n) s s1 ->
      runs T s (u_seen_yield (s_seen_yield s) s1)
  | r_async_function (T : pyval -> Prop) n s s1 : T n -> isa KAsyncFunctionDef n -> runs (inside n) s s1 ->
      runs T s (u_seen_yield (s_seen_yield s) (u_seen_await (s_seen_await s) s1))
  | r_comprehension (T : pyval -> Prop) n s s1 : T n -> isa Kcomprehension n -> runs (inside n) s s1 ->
      runs T s (u_seen_await (s_seen_await s) s1)
  | r_for (T : pyval -> Prop) n s s1 : T n -> isa KFor n \/ isa KAsyncFor n ->
      runs (inside n) (u_seen_for (s_seen_for s + 1) s) s1 -> runs T s (u_seen_for (s_seen_for s1 - 1) s1)
  | r_while (T : pyval -> Prop) n s s1 : T n -> isa KWhile n ->
      runs (inside n) (u_seen_while (s_seen_while s + 1) s) s1 -> runs T s (u_seen_while (s_seen_while s1 - 1) s1)
  | r_finally (T : pyval -> Prop) n s s1 : T n -> isa KTry n -> counted e n ->
      runs (fun m => exists x, In x (items "finalbody" n) /\ own x m) (push_frame s) s1 -> runs T s (pop_frame s1)
  | r_try (T : pyval -> Prop) n s s1 : T n -> isa KTry n -> runs (own_in n) s s1 -> runs T s s1
  | r_subscript (T : pyval -> Prop) n s s1 : T n -> isa KSubscript n ->
      runs (own_in n) (u_ellipsis (s_ellipsis s ++ slice_ellipses (attr "slice" n)) s) s1 -> runs T s s1
  | r_call (T : pyval -> Prop) n g s s1 : T n -> isa KCall n -> callee n g ->
      runs (inside n) (u_fns (s_fns s ++ [g]) s) s1 -> runs T s (u_fns (removelast (s_fns s1)) s1)
  | r_call_other (T : pyval -> Prop) n s s1 : T n -> isa KCall n ->
      ~ (isa KName (attr "func" n) \/ isa KAttribute (attr "func" n)) ->
      runs (inside n) s s1 -> runs T s (u_fns (removelast (s_fns s1)) s1)
  | r_class (T : pyval -> Prop) n s s1 : T n -> isa KClassDef n ->
      runs (fun m => inside n m \/ exists b, In b (items "body" n) /\ own_in b m) s s1 -> runs T s s1.

  Lemma runs_mono (T T' : pyval -> Prop) s s' : (forall n, T n -> T' n) -> runs T s s' -> runs T' s s'.
  Proof.
    intros M R. revert T' M.
    induction R; intros T' M; try solve [econstructor; eauto].
  Qed.

  (** ** Actions *)

  Definition does (T : pyval -> Prop) (a : act) : Prop := forall s s', a s = Ok s' -> runs T s s'.
  Definition doat (T : pyval -> Prop) (s : st) (a : act) : Prop := forall s', a s = Ok s' -> runs T s s'.

  Lemma does_mono (T T' : pyval -> Prop) a : (forall n, T n -> T' n) -> does T a -> does T' a.
  Proof. intros M D s s' E. exact (runs_mono _ _ _ _ M (D s s' E)). Qed.

  Lemma at_does T a : (forall s, doat T s a) -> does T a.
  Proof. intros D s s' E. exact (D s s' E). Qed.
  Lemma does_at T a s : does T a -> doat T s a.
  Proof. intros D s' E. exact (D s s' E). Qed.

  Lemma seq_ok a b s s' : (a >> b) s = Ok s' -> exists s1, a s = Ok s1 /\ b s1 = Ok s'.
  Proof. unfold seq. destruct (a s) as [s1|x]; [eauto|discriminate]. Qed.

  Lemma at_seq T s a b : doat T s a -> (forall s1, a s = Ok s1 -> doat T s1 b) -> doat T s (a >> b).
  Proof.
    intros A B s' E. destruct (seq_ok _ _ _ _ E) as (s1 & E1 & E2).
    exact (r_cat _ _ _ _ (A _ E1) (B _ E1 _ E2)).
  Qed.
  Lemma at_seq' T s a b : doat T s a -> does T b -> doat T s (a >> b).
  Proof. intros A B. apply at_seq; [exact A|]. intros s1 _. apply does_at, B. Qed.
  Lemma at_nop T s : doat T s nop.
  Proof. intros s' E. injection E as <-. apply r_nil. Qed.
  Lemma at_upd T s f : runs T s (f s) -> doat T s (upd f).
  Proof. intros R s' E. injection E as <-. exact R. Qed.
  Lemma at_rd T s f : doat T s (f s) -> doat T s (rd f).
  Proof. intros D. exact D. Qed.
  Lemma at_fail T s x : doat T s (fail x).
  Proof. intros s' E. discriminate. Qed.
  Lemma at_when T s b a : (b = true -> doat T s a) -> doat T s (when b a).
  Proof. destruct b; [auto|]. intros _. apply at_nop. Qed.
  Lemma at_with_res {A} T s (m : res A) f : (forall a, m = Ok a -> doat T s (f a)) -> doat T s (with_res m f).
  Proof. destruct m as [a|x]; intros D; [exact (D a eq_refl)|apply at_fail]. Qed.
  Lemma at_no_line T s line a : (~ In line (e_nolines e) -> doat T s a) -> doat T s (unless_no_line e line a).
  Proof.
    intros D. unfold unless_no_line, is_no_line. destruct (existsb (Z.eqb line) (e_nolines e)) eqn:E.
    - apply at_nop.
    - apply D. intros I. apply Bool.not_true_iff_false in E. apply E. apply existsb_exists.
      exists line. split; [exact I|apply Z.eqb_refl].
  Qed.
  Lemma each_does {A} T (f : A -> act) l : (forall x, In x l -> does T (f x)) -> does T (each f l).
  Proof.
    induction l as [|x r IH]; intros D; simpl.
    - apply at_does. intros s. apply at_nop.
    - apply at_does. intros s. apply at_seq'; [apply does_at, D; left; reflexivity|].
      apply IH. intros y I. apply D. right. exact I.
  Qed.
  Lemma at_each {A} T s (f : A -> act) l : (forall x, In x l -> does T (f x)) -> doat T s (each f l).
  Proof. intros D. apply does_at, each_does, D. Qed.
  Lemma at_scoped T s a : doat T s a -> doat T s (scoped a).
  Proof.
    intros D s' E. unfold scoped in E. destruct (a s) as [s1|x] eqn:E1; [|discriminate].
    injection E as <-. apply r_scoped, D, E1.
  Qed.

  (** Single steps. *)

  Lemma at_print T s level msg ent line versions plural :
    doat T s (verbose_print_v e level msg ent line versions plural).
  Proof.
    intros s' E. unfold verbose_print_v in E.
    destruct (violates e versions) as [[|]|]; try discriminate; [|injection E as <-; apply r_nil].
    destruct (skip_output_line cfg || (c_verbose cfg <? level)); [injection E as <-; apply r_nil|].
    destruct (match ent with Some x => _ | None => _ end) as [[? ?]|]; injection E as <-; apply r_out.
  Qed.

  Lemma at_flag (T : pyval -> Prop) s n f : T n -> simple e f n -> doat T s (set_flag f).
  Proof.
    intros I S. apply at_upd. destruct (existsb (flag_eqb f) (s_flags s)); [apply r_nil|].
    exact (r_flag T n f s I S).
  Qed.

  Lemma at_lc (T : pyval -> Prop) s n x line col : T n -> says_st s n x line -> doat T s (add_lc (EStr x) line col).
  Proof. intros H D. apply at_upd. exact (r_lc T n x line col s H D). Qed.
  Lemma at_lc_kw T s f k line col : doat T s (add_lc (EKw f k) line col).
  Proof. apply at_upd, r_lc_kw. Qed.
  (** Something recorded, then its place. *)
  Lemma at_recorded (T : pyval -> Prop) s n x line col f : runs T s (f s) ->
    s_import_mem_mod (f s) = s_import_mem_mod s -> s_module_as_name (f s) = s_module_as_name s -> s_name_res (f s) = s_name_res s ->
    T n -> says_st s n x line -> doat T s (upd f >> add_lc (EStr x) line col).
  Proof.
    intros R A B C H D. apply at_seq; [apply at_upd, R|]. intros s1 E. injection E as <-. apply (at_lc T _ n); [exact H|].
    unfold says_st, imp_st, ali_st in *. rewrite A, B, C. exact D.
  Qed.
  Lemma at_user_def (T : pyval -> Prop) s n x : T n -> defines n x -> doat T s (add_user_def x).
  Proof. intros H D. apply at_upd. exact (r_user_def T n x s H D). Qed.


End Runs.

Ltac d1 :=
  lazymatch goal with
  | |- does _ _ _ => apply at_does; intros ?s
  | |- doat _ _ _ nop => apply at_nop
  | |- doat _ _ _ (fail _) => apply at_fail
  | |- doat _ _ _ (upd _ >> add_lc (EStr _) _ _) => eapply at_recorded; [|reflexivity|reflexivity|reflexivity| |]
  | |- doat _ _ _ (_ >> _) => apply at_seq'
  | |- doat _ _ _ (when _ _) => apply at_when; intros ?C
  | |- doat _ _ _ (rd _) => apply at_rd
  | |- doat _ _ _ (scoped _) => apply at_scoped
  | |- doat _ _ _ (with_res _ _) => apply at_with_res; intros ?r ?Er
  | |- doat _ _ _ (unless_no_line _ _ _) => apply at_no_line; intros ?NL
  | |- doat _ _ _ (each _ _) => apply at_each; intros ?x ?I
  | |- doat _ _ _ (verbose_print_v _ _ _ _ _ _ _) => apply at_print
  | |- doat _ _ _ (vv _ _ _) => apply at_print
  | |- doat _ _ _ (vv_pl _ _ _ _) => apply at_print
  | |- doat _ _ _ (vvl _ _ _ _) => apply at_print
  | |- doat _ _ _ (vvl_pl _ _ _ _) => apply at_print
  | |- doat _ _ _ (vv_msg _ _) => apply at_print
  | |- doat _ _ _ (vvl_msg _ _ _) => apply at_print
  | |- doat _ _ _ (vvv _ _ _) => apply at_print
  | |- doat _ _ _ (vvvv _ _) => apply at_print
  | |- doat _ _ _ (add_lc (EKw _ _) _ _) => apply at_lc_kw
  end.
Ltac dd := repeat d1.


Section Steps.
  Variable e : env.
  Notation cfg := (e_cfg e).
  Notation runs := (runs e).
  Notation does := (does e).
  Notation doat := (doat e).

  Lemma at_user_def_node (T : pyval -> Prop) s n v : T n -> (forall x, gives v x -> defines n x) ->
    doat T s (add_user_def_node v).
  Proof.
    intros H D. destruct v; cbn [add_user_def_node]; dd.
    - eapply at_user_def; [exact H|]. apply D. left. reflexivity.
    - destruct k; dd. eapply at_user_def; [exact H|]. apply D. right. split; [split; reflexivity|exact C].
  Qed.

  Lemma at_module (T : pyval -> Prop) s n m line col : T n -> module_use n m -> lineno n = line -> doat T s (add_module e m line col).
  Proof.
    intros H Us Li. unfold add_module. d1. destruct (mem m (s_user_defs s)) eqn:U; [dd|].
    destruct (is_excluded cfg m) eqn:X; [dd|]. destruct (mem m (s_modules s)); [dd|].
    d1; [apply (r_module e T n); [exact H|exact Us|apply mem_false, U|exact X]|exact H|]. left. auto.
  Qed.

  Lemma at_member (T : pyval -> Prop) s n m line col : T n -> member_used n m s -> says_st s n m line -> doat T s (add_member e m line col).
  Proof.
    intros H Us Li. unfold add_member. d1. destruct (mem m (s_user_defs s)) eqn:U; [dd|].
    destruct (is_excluded cfg m) eqn:X; [dd|]. destruct (has_key m mod_mem_reqs_x) eqn:K; [|dd].
    d1; [apply (r_member e T n); [exact H|exact Us|apply mem_false, U|exact X|exact K]|exact H|exact Li].
  Qed.

  Lemma at_user_func_deco (T : pyval -> Prop) s n m line : T n -> decorated n -> says_st s n m line -> doat T s (add_user_func_deco e m line).
  Proof.
    intros H D Li. unfold add_user_func_deco. d1. destruct (mem m (s_user_defs s)) eqn:U; [dd|].
    destruct (is_excluded cfg m) eqn:X; [dd|]. destruct (has_key m decorator_user_functions) eqn:K; [|dd].
    d1; [apply (r_ufd e T n); [exact H|exact D|apply mem_false, U|exact X|exact K]|exact H|exact Li].
  Qed.

  Lemma at_strftime_directive (T : pyval -> Prop) s n g line : T n -> strftime_use n g -> lineno n = line ->
    doat T s (add_strftime_directive g line).
  Proof.
    intros H D Li. unfold add_strftime_directive. d1; [exact (r_strftime e T n g s H D)|exact H|].
    left. split; [exact Li|]. do 4 right. left. exact D.
  Qed.
  Lemma at_bytes_directive (T : pyval -> Prop) s n b g line : T n -> constant (VBytes b) n ->
    directive_in (const_text (VBytes b)) g -> lineno n = line -> doat T s (add_bytes_directive g line).
  Proof.
    intros H C D Li. unfold add_bytes_directive. d1; [exact (r_bytesdir e T n b g s H C D)|exact H|].
    left. split; [exact Li|]. do 5 right. left. eauto.
  Qed.
  (** Actions that leave the imports alone. *)
  Definition same (s0 s : st) : Prop :=
    s_import_mem_mod s = s_import_mem_mod s0 /\ s_module_as_name s = s_module_as_name s0.
  Definition leaves_alone (T : pyval -> Prop) (s0 : st) (a : act) : Prop :=
    forall s s', same s0 s -> a s = Ok s' -> runs T s s' /\ same s0 s'.
  Lemma la_at T s a : leaves_alone T s a -> doat T s a.
  Proof. intros H s' E. apply (H s s'); [split; reflexivity|exact E]. Qed.
  Lemma la_nop T s0 : leaves_alone T s0 nop.
  Proof. intros s s' F E. injection E as <-. split; [apply r_nil|exact F]. Qed.
  Lemma la_seq T s0 a b : leaves_alone T s0 a -> leaves_alone T s0 b -> leaves_alone T s0 (a >> b).
  Proof.
    intros A B s s' F E. destruct (seq_ok _ _ _ _ E) as (s1 & E1 & E2). destruct (A _ _ F E1) as [R1 F1].
    destruct (B _ _ F1 E2) as [R2 F2]. split; [exact (r_cat e T _ _ _ R1 R2)|exact F2].
  Qed.
  Lemma la_when T s0 b a : (b = true -> leaves_alone T s0 a) -> leaves_alone T s0 (when b a).
  Proof. destruct b; [auto|]. intros _. apply la_nop. Qed.
  Lemma la_const T s0 v f : (forall c, const_val v = Some c -> leaves_alone T s0 (f c)) -> leaves_alone T s0 (when_const v f).
  Proof. intros D. unfold when_const. destruct (const_val v); [apply D; reflexivity|apply la_nop]. Qed.
  Lemma la_each {A} T s0 (f : A -> act) l : (forall x, In x l -> leaves_alone T s0 (f x)) -> leaves_alone T s0 (each f l).
  Proof.
    induction l as [|x r IH]; intros D; [apply la_nop|]. cbn [each]. apply la_seq; [apply D; left; reflexivity|].
    apply IH. intros y I. apply D. right. exact I.
  Qed.
  Lemma la_upd (T : pyval -> Prop) s0 f : (forall s, same s0 s -> runs T s (f s) /\ same s0 (f s)) -> leaves_alone T s0 (upd f).
  Proof. intros D s s' F E. injection E as <-. apply D, F. Qed.
  Lemma la_print T s0 lv m en li ve pl : leaves_alone T s0 (verbose_print_v e lv m en li ve pl).
  Proof.
    intros s s' F E. split; [exact (at_print e T s lv m en li ve pl s' E)|].
    unfold verbose_print_v in E. destruct (violates e ve) as [[|]|]; try discriminate; [|injection E as <-; exact F].
    destruct (_ || _); [injection E as <-; exact F|].
    destruct (match en with Some x => _ | None => _ end) as [[? ?]|]; injection E as <-; exact F.
  Qed.
  Lemma la_lc (T : pyval -> Prop) s0 n x line col : T n -> (forall s, same s0 s -> says_st s n x line) ->
    leaves_alone T s0 (add_lc (EStr x) line col).
  Proof. intros H D. unfold add_lc. apply la_upd. intros s F. split; [exact (r_lc e T n x line col s H (D s F))|exact F]. Qed.

  Lemma la_array_typecode (T : pyval -> Prop) s0 n t line col : T n -> typecode_use (ali_st s0) n t -> lineno n = line ->
    leaves_alone T s0 (add_array_typecode t line col).
  Proof.
    intros H D Li. unfold add_array_typecode. intros s s' F. unfold rd. destruct (mem t (s_typecodes s)); [apply la_nop, F|].
    apply la_seq; [|apply (la_lc _ _ n); [exact H|]|exact F].
    - apply la_upd. intros s1 [F1 F2]. split; [|exact (conj F1 F2)].
      apply (r_typecode e T n); [exact H|]. unfold ali_st in *. rewrite F2. exact D.
    - intros s1 [F1 F2]. left. split; [exact Li|]. do 6 right. left. unfold ali_st in *. rewrite F2. exact D.
  Qed.
  Lemma at_typecodes (T : pyval -> Prop) s n line col : T n ->
    (forall d a, In a (items "args" n) -> constant (VStr d) a -> typecode_use (ali_st s) n d) -> lineno n = line ->
    doat T s (add_typecodes (items "args" n) line col).
  Proof.
    intros H D Li. apply la_at. unfold add_typecodes. apply la_each. intros x I. destruct (str_val x) as [t|] eqn:E; [|apply la_nop].
    eapply la_array_typecode; [exact H| |exact Li]. apply (D t x I). apply str_val_constant, E.
  Qed.
  Lemma la_ceh (T : pyval -> Prop) s0 n v line : T n -> handler_use (imp_st s0) (ali_st s0) n v -> lineno n = line ->
    leaves_alone T s0 (add_ceh e v line).
  Proof.
    intros H D Li. unfold add_ceh. destruct (is_excluded_ceh cfg (const_text v)) eqn:X; [apply la_print|].
    apply la_seq.
    - apply la_upd. intros s1 [F1 F2]. split; [|exact (conj F1 F2)].
      apply (r_ceh e T n); [exact H| |exact X]. unfold ali_st, imp_st in *. rewrite F1, F2. exact D.
    - destruct v; cbn [add_lc_val]; try apply la_nop. apply (la_lc _ _ n); [exact H|].
      intros s1 [F1 F2]. left. split; [exact Li|]. do 7 right. left. unfold ali_st, imp_st in *. rewrite F1, F2. exact D.
  Qed.
  Lemma la_cenc (T : pyval -> Prop) s0 n v line : T n -> encoding_use (imp_st s0) (ali_st s0) n v -> lineno n = line ->
    leaves_alone T s0 (add_cenc e v line).
  Proof.
    intros H D Li. unfold add_cenc. destruct (is_excluded_ce cfg (const_text v)) eqn:X; [apply la_print|].
    apply la_seq.
    - apply la_upd. intros s1 [F1 F2]. split; [|exact (conj F1 F2)].
      apply (r_cenc e T n); [exact H| |exact X]. unfold ali_st, imp_st in *. rewrite F1, F2. exact D.
    - destruct v; cbn [add_lc_val]; try apply la_nop. apply (la_lc _ _ n); [exact H|].
      intros s1 [F1 F2]. left. split; [exact Li|]. do 8 right. unfold ali_st, imp_st in *. rewrite F1, F2. exact D.
  Qed.
  Lemma assoc_pair {A} x (l : list (string * A)) y : assoc x l = Some y -> In (x, y) l.
  Proof.
    induction l as [|[a b] r IH]; [discriminate|]. cbn [assoc]. destruct (String.eqb x a) eqn:E.
    - intros F. injection F as ->. apply String.eqb_eq in E as ->. left. reflexivity.
    - intros F. right. exact (IH F).
  Qed.
  Lemma kw_arg_in_str names w : kw_arg_in names w = true -> exists k, attr "arg" w = VStr k /\ In k names.
  Proof.
    unfold kw_arg_in. destruct (attr "arg" w); cbn [as_ostr]; try discriminate. intros M. eexists. split; [reflexivity|].
    apply mem_In, M.
  Qed.
  Lemma at_when_const T s v f : (forall c, const_val v = Some c -> doat T s (f c)) -> doat T s (when_const v f).
  Proof. intros D. unfold when_const. destruct (const_val v) eqn:E; [apply D; reflexivity|dd]. Qed.
  Lemma at_codecs (T : pyval -> Prop) s n func line : T n -> calls_function (imp_st s) (ali_st s) n func -> lineno n = line ->
    doat T s (check_codecs_function e func (items "args" n) (items "keywords" n) line).
  Proof.
    intros H Cf Li. apply la_at. unfold check_codecs_function, add_codecs_error_handler, add_codecs_encoding. apply la_seq.
    - destruct (assoc func codecs_errors_indices) as [i|] eqn:A; [|apply la_nop]. apply assoc_pair in A.
      assert (Use : forall c, literal_at [i] ["errors"] n c -> leaves_alone T s (add_ceh e c line)).
      { intros c L. eapply la_ceh; [exact H| |exact Li]. exists func, i. split; [exact Cf|]. split; [exact A|exact L]. }
      apply la_seq.
      + destruct (nth_error (items "args" n) i) as [a|] eqn:N; [|apply la_nop]. apply la_const. intros c C.
        apply Use. left. exists i, a. split; [left; reflexivity|]. split; [exact N|apply const_val_constant, C].
      + apply la_each. intros w I. apply la_when. intros K. apply la_const. intros c C. apply Use. right.
        destruct (kw_arg_in_str _ _ K) as (k & Ek & Ik). exists w, k. repeat (split; [assumption|]). apply const_val_constant, C.
    - destruct (assoc func codecs_encodings_indices) as [ix|] eqn:A; [|apply la_nop]. apply assoc_pair in A.
      assert (Use : forall c, literal_at ix codecs_encodings_kwargs n c -> leaves_alone T s (add_cenc e c line)).
      { intros c L. eapply la_cenc; [exact H| |exact Li]. exists func, ix. split; [exact Cf|]. split; [exact A|exact L]. }
      assert (Kw : leaves_alone T s (each (fun kw => when (kw_arg_in codecs_encodings_kwargs kw)
                     (when_const (attr "value" kw) (fun v => add_cenc e v line))) (items "keywords" n))).
      { apply la_each. intros w I. apply la_when. intros K. apply la_const. intros c C. apply Use. right.
        destruct (kw_arg_in_str _ _ K) as (k & Ek & Ik). exists w, k. repeat (split; [assumption|]). apply const_val_constant, C. }
      apply la_each. intros x I. destruct (nth_error (items "args" n) x) as [a|] eqn:N; cbn [option_map]; [|exact Kw].
      destruct (const_val a) as [v|] eqn:C; [|exact Kw]. apply la_seq.
      + apply Use. left. exists x, a. split; [exact I|]. split; [exact N|apply const_val_constant, C].
      + apply la_when. intros _. exact Kw.
  Qed.

  Lemma at_name_res (T : pyval -> Prop) s n a b : T n -> assigns n a -> doat T s (add_name_res a b).
  Proof. intros H As. apply at_upd, (r_name_res e T n); assumption. Qed.
  Lemma at_name_res_type T s a b : doat T s (add_name_res_type a b).
  Proof. apply at_upd, r_name_res_type. Qed.

  Lemma name_id_is v i : name_id v = Some i -> is_name i v.
  Proof.
    unfold name_id. destruct v; try discriminate. destruct k; try discriminate. intros E. injection E as <-.
    split; reflexivity.
  Qed.
  Lemma at_name_res_assign (T : pyval -> Prop) s n targets value : T n ->
    (forall t a, In t targets -> is_name a t -> assigns n a) -> doat T s (add_name_res_assign targets value).
  Proof.
    intros H As. unfold add_name_res_assign. dd. destruct (name_id x) as [i|] eqn:Ni; [|dd].
    assert (Ai : assigns n i) by (apply (As x); [assumption|apply name_id_is, Ni]).
    destruct r as [[v|] [ty|]]; dd; try (eapply at_name_res; [exact H|exact Ai]); apply at_name_res_type.
  Qed.

  Lemma at_target_defs (T : pyval -> Prop) s n v : T n -> (forall x, bound x v -> defines n x) ->
    doat T s (add_target_defs v).
  Proof.
    intros H D. unfold add_target_defs. dd. eapply at_user_def_node; [exact H|]. intros y G. apply D.
    exact (proj1 (target_bound _ _) (ex_intro _ _ (conj I G))).
  Qed.

  Lemma at_generic T s v ks : does T (visit_fields ks) -> doat T s (generic_visit e v ks).
  Proof.
    intros D s' E. unfold generic_visit in E.
    destruct (seq_ok _ _ _ _ E) as (s1 & E1 & E'). clear E.
    eapply r_cat; [instantiate (1 := s1); destruct (pos_of v) as [[l c]|]; injection E1 as <-; [apply r_line|apply r_nil]|].
    unfold seq at 1, upd at 1 in E'.
    destruct (seq_ok _ _ _ _ E') as (s2 & E2 & E3). clear E'.
    destruct (seq_ok _ _ _ _ E3) as (s3 & E4 & E5). clear E3. injection E5 as <-.
    apply r_depth. eapply r_cat; [|exact (D _ _ E4)].
    unfold when in E2. destruct (c_print_visits cfg && negb (c_quiet cfg)); injection E2 as <-; [apply r_out|apply r_nil].
  Qed.
End Steps.
