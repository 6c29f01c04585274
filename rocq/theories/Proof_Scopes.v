(** The names known in a scope are forgotten when it is left. Lemmas for C40, C42. *)
From Verif Require Import PyBase PyLemmas Utility RulesData Rules Config Formats Paths AstKinds Ast State Visitor
  Spec_Base Spec_Visitor Spec_Places Proof_Shapes Proof_Runs Proof_Handlers Proof_Brackets Proof_Tour Proof_Claims.

Definition keeps (a : act) : Prop := forall s s', a s = Ok s' -> s_user_defs s' = s_user_defs s.

Lemma keeps_seq a b : keeps a -> keeps b -> keeps (a >> b).
Proof. intros A B s s' E. destruct (seq_ok _ _ _ _ E) as (s1 & E1 & E2). rewrite (B _ _ E2). exact (A _ _ E1). Qed.
Lemma keeps_nop : keeps nop.
Proof. intros s s' E. injection E as <-. reflexivity. Qed.
Lemma keeps_when b a : keeps a -> keeps (when b a).
Proof. destruct b; [auto|]. intros _. apply keeps_nop. Qed.
Lemma keeps_rd f : (forall s, keeps (f s)) -> keeps (rd f).
Proof. intros F s s' E. exact (F s s s' E). Qed.
Lemma keeps_with_res {A} (m : res A) f : (forall a, keeps (f a)) -> keeps (with_res m f).
Proof. intros F. destruct m; [apply F|]. intros s s' E. discriminate. Qed.
Lemma keeps_each {A} (f : A -> act) l : (forall x, keeps (f x)) -> keeps (each f l).
Proof. intros F. induction l; [apply keeps_nop|]. cbn [each]. apply keeps_seq; auto. Qed.
Lemma keeps_scoped a : keeps (scoped a).
Proof. intros s s' E. unfold scoped in E. destruct (a s); [|discriminate]. injection E as <-. reflexivity. Qed.
Lemma keeps_no_line e l a : keeps a -> keeps (unless_no_line e l a).
Proof. unfold unless_no_line. destruct (is_no_line e l); [intros _; apply keeps_nop|auto]. Qed.
Lemma keeps_print e lv m en li ve pl : keeps (verbose_print_v e lv m en li ve pl).
Proof. intros s s' E. destruct (print_out _ _ _ _ _ _ _ _ _ E) as (o & ->). reflexivity. Qed.
Lemma keeps_flag f : keeps (set_flag f).
Proof. intros s s' E. unfold set_flag, upd in E. injection E as <-. destruct (existsb _ _); reflexivity. Qed.
Lemma keeps_upd f : (forall s, s_user_defs (f s) = s_user_defs s) -> keeps (upd f).
Proof. intros F s s' E. injection E as <-. apply F. Qed.

Ltac k1 :=
  lazymatch goal with
  | |- keeps nop => apply keeps_nop
  | |- keeps (_ >> _) => apply keeps_seq
  | |- keeps (when _ _) => apply keeps_when
  | |- keeps (rd _) => apply keeps_rd; intros ?s
  | |- keeps (scoped _) => apply keeps_scoped
  | |- keeps (with_res _ _) => apply keeps_with_res; intros ?r
  | |- keeps (unless_no_line _ _ _) => apply keeps_no_line
  | |- keeps (each _ _) => apply keeps_each; intros ?x
  | |- keeps (set_flag _) => apply keeps_flag
  | |- keeps (verbose_print_v _ _ _ _ _ _ _) => apply keeps_print
  | |- keeps (vv _ _ _) => apply keeps_print
  | |- keeps (vv_pl _ _ _ _) => apply keeps_print
  | |- keeps (vvl _ _ _ _) => apply keeps_print
  | |- keeps (vvl_pl _ _ _ _) => apply keeps_print
  | |- keeps (vv_msg _ _) => apply keeps_print
  | |- keeps (vvl_msg _ _ _) => apply keeps_print
  | |- keeps (vvv _ _ _) => apply keeps_print
  | |- keeps (vvvv _ _) => apply keeps_print
  | |- keeps (upd _) => apply keeps_upd; intros ?s; reflexivity
  | |- keeps (if ?b then _ else _) => destruct b
  | |- keeps (match ?x with _ => _ end) => destruct x
  end.
Ltac kk := repeat k1.

Section Scopes.
  Variable e : env.

  (** The classes of node that are left with the names they were entered with. *)
  Definition scope_kinds : list kind :=
    [KLambda; KListComp; KSetComp; KDictComp; KGeneratorExp; KFor; KAsyncFor; KWith; KAsyncWith; KExceptHandler].

  Lemma visit_node k u p fs : visit e (VNode k u p fs) = handler e k u p fs (kids e fs).
  Proof. reflexivity. Qed.

  Lemma scope_keeps k u p fs : In k scope_kinds -> keeps (visit e (VNode k u p fs)).
  Proof.
    intros I. rewrite visit_node. unfold scope_kinds in I. simpl in I.
    repeat destruct I as [<-|I]; try destruct I; cbn [handler];
      unfold comp_scope, visit_setcomp, visit_dictcomp, comp_scope, handle_for, visit_asyncfor, handle_for, visit_with,
        visit_asyncwith, handle_with, visit_excepthandler; kk.
  Qed.

  Lemma keeps_ufd d line : keeps (add_user_func_deco e d line).
  Proof.
    unfold add_user_func_deco, add_lc. kk.
  Qed.

  Lemma keeps_args line args : keeps (arg_annotations e line args).
  Proof. induction args; cbn [arg_annotations]; kk; auto. Qed.

  Lemma function_defs v fs ks s s' : handle_functiondef e v fs ks s = Ok s' ->
    s_user_defs s' = set_add (fstr "name" fs) (s_user_defs s).
  Proof.
    unfold handle_functiondef. intros E. destruct (seq_ok _ _ _ _ E) as (s1 & E1 & E2).
    unfold add_user_def, upd in E1. injection E1 as <-.
    match type of E2 with ?a ?b = _ => assert (K : keeps a) end.
    { unfold check_relaxed_decorators, check_user_func_decorators. kk; try apply keeps_ufd; apply keeps_args. }
    rewrite (K _ _ E2). reflexivity.
  Qed.

  Lemma function_leaves k u p fs s s' : k = KFunctionDef \/ k = KAsyncFunctionDef ->
    visit e (VNode k u p fs) s = Ok s' ->
    s_user_defs s' = s_user_defs s \/ s_user_defs s' = set_add (fstr "name" fs) (s_user_defs s).
  Proof.
    intros K. rewrite visit_node. destruct K as [-> | ->]; cbn [handler].
    - unfold visit_functiondef, unless_no_line. destruct (is_no_line e _); [intros E; injection E as <-; auto|].
      unfold rd. intros E. destruct (seq_ok _ _ _ _ E) as (s1 & E1 & E2). right. injection E2 as <-.
      exact (function_defs _ _ _ _ _ E1).
    - unfold visit_asyncfunctiondef, unless_no_line. destruct (is_no_line e _); [intros E; injection E as <-; auto|].
      unfold rd at 1. intros E. destruct (seq_ok _ _ _ _ E) as (s1 & E1 & E2). right.
      match type of E2 with ?a ?b = _ => assert (K : keeps a) by kk end.
      rewrite (K _ _ E2). exact (function_defs _ _ _ _ _ E1).
  Qed.

End Scopes.

(** ** The statements about visits and tours *)

Section Stated.
  Variable e : env.

  Lemma tour_absent v s : tour e v = Ok s -> (forall f, ~ present e v f) -> s_flags s = [].
  Proof.
    intros E N. destruct (s_flags s) as [|f l] eqn:F; [reflexivity|]. destruct (N f).
    apply (tour_present _ _ _ _ E). rewrite F. left. reflexivity.
  Qed.

  Lemma tour_flat v s : tour e v = Ok s -> exists s1 o, flat e (fun x => below x v) init_st s1 /\
    runs e (own v) init_st s1 /\
    s = u_out o (u_members (filter (fun m => negb (mem m (s_user_defs s1))) (s_members s1))
          (u_modules (filter (fun m => negb (mem m (s_user_defs s1))) (s_modules s1)) s1)).
  Proof.
    intros E. destruct (tour_runs _ _ _ E) as (s1 & o & R & ->). exists s1, o. split; [|split; [exact R|reflexivity]].
    exact (flat_mono _ _ _ _ _ (own_under v) (runs_flat _ _ _ _ R)).
  Qed.

  Lemma not_mem x l : mem x l = false -> ~ In x l.
  Proof. intros M I. apply mem_In in I. congruence. Qed.

  Lemma tour_excluded v s : tour e v = Ok s ->
    (forall m, In m (s_modules s) -> ~ In m (c_exclusions_set (e_cfg e))) /\
    (forall m, In m (s_members s) -> ~ In m (c_exclusions_set (e_cfg e))) /\
    (forall f k, In (f, Some k) (s_kwargs s) -> ~ In (f +++ "(" +++ k +++ ")") (c_exclusions_set (e_cfg e))) /\
    (forall d, In d (s_ufds s) -> ~ In d (c_exclusions_set (e_cfg e))) /\
    (forall h, In (VStr h) (s_cehs s) -> ~ In ("ceh=" +++ h) (c_exclusions_set (e_cfg e))) /\
    (forall n, In (VStr n) (s_cencs s) -> ~ In ("ce=" +++ n) (c_exclusions_set (e_cfg e))) /\
    (In FLongV2 (s_flags s) -> ~ In "long" (c_exclusions_set (e_cfg e))).
  Proof.
    intros E. pose proof (tour_present e v s FLongV2 E) as P.
    destruct (tour_flat _ _ E) as (s1 & o & F & _ & ->).
    assert (A0 : allowed e init_st) by (repeat split; intros * []).
    destruct (flat_allowed _ _ _ _ F A0) as (A1 & A2 & A3 & A4 & A5 & A6). cbn in *.
    split; [|split; [|split; [|split; [|split; [|split]]]]].
    - intros m I. apply filter_In in I as [I _]. apply not_mem, (A1 _ I).
    - intros m I. apply filter_In in I as [I _]. apply not_mem, (A2 _ I).
    - intros f k I. apply not_mem. exact (A3 _ _ I).
    - intros d I. apply not_mem, (A4 _ I).
    - intros h I. apply not_mem. exact (A5 _ I).
    - intros h I. apply not_mem. exact (A6 _ I).
    - intros I. specialize (P I). inversion P as [f n B S|]; subst. inversion S as [f m Si| | |]; subst.
      inversion Si; subst. apply not_mem. assumption.
  Qed.

  Lemma visit_balanced v s s' : visit e v s = Ok s' ->
    s_depth s' = s_depth s /\ s_seen_for s' = s_seen_for s /\ s_seen_while s' = s_seen_while s /\
    s_try_finally s' = s_try_finally s.
  Proof. intros E. exact (runs_same _ _ _ _ (visit_runs e v _ _ E)). Qed.

  Lemma visit_scope k v s s' : In k scope_kinds -> isa k v -> visit e v s = Ok s' -> s_user_defs s' = s_user_defs s.
  Proof. intros I K E. destruct (isa_kind _ _ K) as (u & p & fs & ->). exact (scope_keeps e k u p fs I _ _ E). Qed.

  Lemma visit_kept v s s' : visit e v s = Ok s' -> incl (s_user_defs s) (s_user_defs s').
  Proof. intros E. exact (runs_defs _ _ _ _ (visit_runs e v _ _ E)). Qed.

  Lemma visit_function v s s' x : function_def v -> visit e v s = Ok s' ->
    (In x (s_user_defs s') -> x = as_str (attr "name" v) \/ In x (s_user_defs s)) /\
    (In x (s_user_defs s) -> In x (s_user_defs s')).
  Proof.
    intros K E. split; [|exact (visit_kept _ _ _ E x)].
    assert (exists k u p fs, (k = KFunctionDef \/ k = KAsyncFunctionDef) /\ v = VNode k u p fs) as (k & u & p & fs & Kk & ->).
    { destruct K as [K|K]; destruct (isa_kind _ _ K) as (u & p & fs & ->); eauto 10. }
    destruct (function_leaves _ _ _ _ _ _ _ Kk E) as [-> | ->]; [auto|].
    intros I. apply set_add_In in I. exact I.
  Qed.

  Lemma visit_calls v s s' : (forall c, below c v -> isa KCall c -> named_call c) -> visit e v s = Ok s' -> s_fns s' = s_fns s.
  Proof.
    intros N E. apply (runs_fns_same _ _ _ _ (visit_runs e v _ _ E)).
    intros c U. apply N. exact (own_under _ _ U).
  Qed.

  Lemma visit_calls_shrink v s s' : visit e v s = Ok s' -> exists tl, s_fns s = s_fns s' ++ tl.
  Proof. intros E. exact (runs_fns _ _ _ _ (visit_runs e v _ _ E)). Qed.

  Lemma tour_keyword v s f k : tour e v = Ok s -> In (f, k) (s_kwargs s) ->
    exists c x g, below c v /\ called c g /\ below x c /\ keyword_arg x k /\
    resolves (fun x m => exists n, below n v /\ imports_from n m x) (fun a => exists n, below n v /\ assigns n a) g f.
  Proof.
    intros E I. destruct (tour_flat _ _ E) as (s1 & o & _ & R & ->). cbn in I.
    destruct (runs_kwargs _ _ _ _ _ _ R I) as [[]|[(c & x & g & A & B & C & D & Re)|(x & g & _ & [] & _)]].
    exists c, x, g. split; [exact (own_under _ _ A)|]. repeat (split; [assumption|]).
    revert Re. apply resolves_mono.
    - intros y m [H|(n & U & H)]; [discriminate|]. exists n. split; [exact (own_under _ _ U)|exact H].
    - intros y [[]|(n & U & H)]. exists n. split; [exact (own_under _ _ U)|exact H].
  Qed.

  Lemma tour_module v s m : tour e v = Ok s -> In m (s_modules s) -> exists n, below n v /\ module_use n m.
  Proof.
    intros E I. destruct (tour_flat _ _ E) as (s1 & o & F & _ & ->). cbn in I. apply filter_In in I as [I _].
    destruct (flat_modules _ _ _ _ _ F I) as [[]|X]. exact X.
  Qed.

  Lemma has_key_In {A} k (l : list (string * A)) : has_key k l = true -> In k (map fst l).
  Proof.
    unfold has_key. destruct (assoc k l) eqn:E; [|discriminate]. intros _. exact (assoc_key _ _ _ E).
  Qed.

  Lemma tour_member v s m : tour e v = Ok s -> In m (s_members s) ->
    In m (map fst mod_mem_reqs_x) /\
    exists n, below n v /\
      (member_use n m \/ isa KAttribute n /\ exists n', below n' v /\ assigns n' (as_str (attr "attr" n))).
  Proof.
    intros E I. destruct (tour_flat _ _ E) as (s1 & o & F & _ & ->).
    assert (I' : In m (s_members s1)) by (apply filter_In in I as [I _]; exact I). clear I. split.
    - destruct (flat_listed _ _ _ _ _ F I') as [[]|X]. exact (has_key_In _ _ X).
    - destruct (flat_members _ _ _ _ _ F I') as [[]|[(n & B & U)|(n & a & B & K & <- & [[]|A])]]; eauto 10.
  Qed.

  (** The other detections come from the tree too. *)
  Definition imp_of (U : pyval -> Prop) (s : st) (x p : string) : Prop := imp_st s x p \/ exists n, U n /\ imports_from n p x.
  Definition ali_of (U : pyval -> Prop) (s : st) (a m : string) : Prop := ali_st s a m \/ exists n, U n /\ aliases n a m.

  Lemma calls_function_mono (imp imp' ali ali' : string -> string -> Prop) n f : (forall x y, imp x y -> imp' x y) ->
    (forall x y, ali x y -> ali' x y) -> calls_function imp ali n f -> calls_function imp' ali' n f.
  Proof.
    intros I A [K [(id & N & [(p & P & E)|P])|H]]; (split; [exact K|]); [left|left|right; exact H].
    - exists id. split; [exact N|]. left. eauto.
    - exists id. split; [exact N|]. right. eauto.
  Qed.
  Lemma encoding_mono (imp imp' ali ali' : string -> string -> Prop) n c : (forall x y, imp x y -> imp' x y) ->
    (forall x y, ali x y -> ali' x y) -> encoding_use imp ali n c -> encoding_use imp' ali' n c.
  Proof. intros I A (f & l & C & H). exists f, l. split; [exact (calls_function_mono _ _ _ _ _ _ I A C)|exact H]. Qed.
  Lemma handler_mono (imp imp' ali ali' : string -> string -> Prop) n c : (forall x y, imp x y -> imp' x y) ->
    (forall x y, ali x y -> ali' x y) -> handler_use imp ali n c -> handler_use imp' ali' n c.
  Proof. intros I A (f & l & C & H). exists f, l. split; [exact (calls_function_mono _ _ _ _ _ _ I A C)|exact H]. Qed.
  Lemma typecode_mono (ali ali' : string -> string -> Prop) n c : (forall x y, ali x y -> ali' x y) ->
    typecode_use ali n c -> typecode_use ali' n c.
  Proof. intros A (K & [C|[(id & N & C)|C]] & H); (split; [exact K|]); (split; [|exact H]); eauto 6. Qed.

  Lemma flat_texts U s s' : flat e U s s' ->
    (forall d, In d (s_strftimes s') -> In d (s_strftimes s) \/ exists n, U n /\ strftime_use n d) /\
    (forall d, In d (s_bytesdirs s') -> In d (s_bytesdirs s) \/
       exists n b, U n /\ constant (VBytes b) n /\ directive_in (const_text (VBytes b)) d) /\
    (forall d, In d (s_typecodes s') -> In d (s_typecodes s) \/ exists n, U n /\ typecode_use (ali_of U s) n d) /\
    (forall c, In c (s_cehs s') -> In c (s_cehs s) \/ exists n, U n /\ handler_use (imp_of U s) (ali_of U s) n c) /\
    (forall c, In c (s_cencs s') -> In c (s_cencs s) \/ exists n, U n /\ encoding_use (imp_of U s) (ali_of U s) n c) /\
    (forall d, In d (s_ufds s') -> In d (s_ufds s) \/
       has_key d decorator_user_functions = true /\ exists n, U n /\ decorated n) /\
    (forall x, In x (s_user_defs s') -> In x (s_user_defs s) \/ exists n, U n /\ defines n x).
  Proof.
    intros F. induction F; unfold raise_flag in *; cbn [s_strftimes s_bytesdirs s_typecodes s_cehs s_cencs s_ufds s_user_defs
      u_strftimes u_bytesdirs u_typecodes u_cehs u_cencs u_ufds u_user_defs u_out u_lcs u_line u_depth u_flags u_modules
      u_members u_kwargs u_import_mem_mod u_name_res u_name_res_type u_module_as_name u_seen_await u_seen_yield u_seen_for
      u_seen_while u_try_finally u_ellipsis u_fns] in *;
      try (repeat split; auto; fail).
    - destruct IHF1 as (A1 & A2 & A3 & A4 & A5 & A6 & A7), IHF2 as (B1 & B2 & B3 & B4 & B5 & B6 & B7).
      assert (Im : forall x p, imp_of U s2 x p -> imp_of U s1 x p).
      { intros x p [I|I]; [exact (flat_imported _ _ _ _ _ _ F1 I)|right; exact I]. }
      assert (Al : forall x p, ali_of U s2 x p -> ali_of U s1 x p).
      { intros x p [I|I]; [exact (flat_aliased _ _ _ _ _ _ F1 I)|right; exact I]. }
      split; [|split; [|split; [|split; [|split; [|split]]]]]; intros x I.
      + destruct (B1 x I) as [J|J]; auto.
      + destruct (B2 x I) as [J|J]; auto.
      + destruct (B3 x I) as [J|(n & J & K)]; [auto|]. right. exists n. split; [exact J|exact (typecode_mono _ _ _ _ Al K)].
      + destruct (B4 x I) as [J|(n & J & K)]; [auto|]. right. exists n. split; [exact J|exact (handler_mono _ _ _ _ _ _ Im Al K)].
      + destruct (B5 x I) as [J|(n & J & K)]; [auto|]. right. exists n. split; [exact J|exact (encoding_mono _ _ _ _ _ _ Im Al K)].
      + destruct (B6 x I) as [J|J]; auto.
      + destruct (B7 x I) as [J|J]; auto.
    - repeat split; auto. intros x I. apply in_app_iff in I as [I|[<-|[]]]; eauto.
    - repeat split; auto. intros x I. apply in_app_iff in I as [I|[<-|[]]]; eauto.
    - repeat split; auto. intros x I. apply in_app_iff in I as [I|[<-|[]]]; eauto 8.
    - repeat split; auto. intros x I. apply in_app_iff in I as [I|[<-|[]]]; [auto|]. right. exists n. split; [assumption|].
      refine (typecode_mono _ _ _ _ _ H0). intros x y A. left. exact A.
    - repeat split; auto. intros x I. apply in_app_iff in I as [I|[<-|[]]]; [auto|]. right. exists n. split; [assumption|].
      refine (handler_mono _ _ _ _ _ _ _ _ H0); intros x y A; left; exact A.
    - repeat split; auto. intros x I. apply in_app_iff in I as [I|[<-|[]]]; [auto|]. right. exists n. split; [assumption|].
      refine (encoding_mono _ _ _ _ _ _ _ _ H0); intros x y A; left; exact A.
  Qed.

  Lemma tour_texts v s : tour e v = Ok s ->
    let imp x p := exists n, below n v /\ imports_from n p x in
    let ali a m := exists n, below n v /\ aliases n a m in
    (forall d, In d (s_strftimes s) -> exists n, below n v /\ strftime_use n d) /\
    (forall d, In d (s_bytesdirs s) ->
       exists n b, below n v /\ constant (VBytes b) n /\ directive_in (const_text (VBytes b)) d) /\
    (forall d, In d (s_typecodes s) -> exists n, below n v /\ typecode_use ali n d) /\
    (forall c, In c (s_cehs s) -> exists n, below n v /\ handler_use imp ali n c) /\
    (forall c, In c (s_cencs s) -> exists n, below n v /\ encoding_use imp ali n c) /\
    (forall d, In d (s_ufds s) -> In d (map fst decorator_user_functions) /\ exists n, below n v /\ decorated n) /\
    (forall x, In x (s_user_defs s) -> exists n, below n v /\ defines n x).
  Proof.
    intros E imp ali. destruct (tour_flat _ _ E) as (s1 & o & F & _ & ->).
    destruct (flat_texts _ _ _ F) as (A1 & A2 & A3 & A4 & A5 & A6 & A7).
    assert (Im : forall x p, imp_of (fun x => below x v) init_st x p -> imp x p) by (intros x p [I|I]; [discriminate|exact I]).
    assert (Al : forall x p, ali_of (fun x => below x v) init_st x p -> ali x p) by (intros x p [I|I]; [discriminate|exact I]).
    split; [|split; [|split; [|split; [|split; [|split]]]]]; intros d I.
    - destruct (A1 d I) as [[]|X]. exact X.
    - destruct (A2 d I) as [[]|X]. exact X.
    - destruct (A3 d I) as [[]|(n & B & X)]. exists n. split; [exact B|exact (typecode_mono _ _ _ _ Al X)].
    - destruct (A4 d I) as [[]|(n & B & X)]. exists n. split; [exact B|exact (handler_mono _ _ _ _ _ _ Im Al X)].
    - destruct (A5 d I) as [[]|(n & B & X)]. exists n. split; [exact B|exact (encoding_mono _ _ _ _ _ _ Im Al X)].
    - destruct (A6 d I) as [[]|[K X]]. split; [exact (has_key_In _ _ K)|exact X].
    - destruct (A7 d I) as [[]|X]. exact X.
  Qed.

  Lemma tour_filtered v s : tour e v = Ok s ->
    forall m, In m (s_modules s) \/ In m (s_members s) -> ~ In m (s_user_defs s).
  Proof.
    intros E m H. destruct (tour_runs _ _ _ E) as (s1 & o & _ & ->). cbn in *.
    destruct H as [H|H]; apply filter_In in H as [_ H]; apply negb_true_iff, mem_false in H; exact H.
  Qed.
End Stated.
