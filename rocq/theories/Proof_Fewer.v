(** An analysis with more exclusions and fewer features. Lemmas for C66, C67. *)
From Verif Require Import PyBase PyLemmas Utility RulesData Rules Config Formats Paths AstKinds Ast State Visitor
  Spec_Base Spec_Visitor Spec_MinVersions Spec_Same Spec_Fewer Proof_Tour Proof_Same.

(** States that differ in the printed text, the current line, positions, and in that less is recorded. *)
Definition put (o : list string) (l : Z) (c : list (entity * (Z * option Z))) (mo me uf : list string) (ce cn : list pyval) (fl : list flag) (s : st) : st :=
  mkSt (s_depth s) l o c mo me fl (s_seen_yield s) (s_seen_await s) (s_seen_for s) (s_seen_while s) (s_try_finally s) (s_fns s) (s_kwargs s) uf (s_strftimes s) (s_bytesdirs s) ce cn (s_typecodes s) (s_import_mem_mod s) (s_name_res s) (s_name_res_type s) (s_user_defs s) (s_module_as_name s) (s_ellipsis s) (s_info s).
(** [Lost]: features that may be lost. [Alike]: failures are the same; without it a visit may fail with fewer exclusions only. *)
Section Base.
Variables (Alike : Prop) (Lost : list flag).
Definition fewer (s s' : st) : Prop := exists o l c mo me uf ce cn fl, s' = put o l c mo me uf ce cn fl s /\
  (incl mo (s_modules s) /\ incl me (s_members s) /\ incl uf (s_ufds s) /\ incl ce (s_cehs s) /\ incl cn (s_cencs s) /\ incl fl (s_flags s) /\
   forall f, In f (s_flags s) -> ~ In f Lost -> In f fl).
Definition fewr (r r' : res st) : Prop :=
  match r, r' with Ok s, Ok s' => fewer s s' | Err x, Err x' => Alike -> x = x' | Err _, Ok _ => ~ Alike | Ok _, Err _ => False end.
Definition few (a a' : act) : Prop := forall s s', fewer s s' -> fewr (a s) (a' s').

Lemma incl_both {A} (l l' : list A) x : incl l' l -> incl (l' ++ [x]) (l ++ [x]).
Proof. intros I y H. apply in_app_iff in H. apply in_app_iff. destruct H as [H|H]; [left; apply I, H|right; exact H]. Qed.
Lemma incl_one {A} (l l' : list A) x : incl l' l -> incl l' (l ++ [x]).
Proof. intros I y H. apply in_app_iff. left. apply I, H. Qed.
Lemma incl_in {A} (l l' : list A) x : incl l' l -> In x l -> incl (l' ++ [x]) l.
Proof. intros I H y Hy. apply in_app_iff in Hy. destruct Hy as [Hy|[<-|[]]]; [apply I, Hy|exact H]. Qed.

Ltac here := eexists _, _, _, _, _, _, _, _, _; split; [reflexivity|].

Lemma few_nop : few nop nop.
Proof. intros s s' L. exact L. Qed.
Lemma fewr_then a a' b b' s s' : fewr (a s) (a' s') -> few b b' -> fewr ((a >> b) s) ((a' >> b') s').
Proof.
  intros A B. unfold seq. destruct (a s) as [s1|x1], (a' s') as [s1'|x1']; cbn in A; try contradiction.
  - apply B, A.
  - unfold fewr. destruct (b' s1'); [exact A|intros H; contradiction].
  - exact A.
Qed.
Lemma seq_assoc a b c s : (a >> (b >> c)) s = ((a >> b) >> c) s.
Proof. unfold seq. destruct (a s); reflexivity. Qed.
Lemma few_seq a a' b b' : few a a' -> few b b' -> few (a >> b) (a' >> b').
Proof.
  intros A B s s' L. exact (fewr_then _ _ _ _ _ _ (A _ _ L) B).
Qed.
Lemma few_skip a b b' : few a nop -> few b b' -> few (a >> b) b'.
Proof. intros A B. change b' with (nop >> b'). apply few_seq; assumption. Qed.
Lemma few_both a b : few a nop -> few nop b -> few a b.
Proof.
  intros A B s s' L. specialize (A _ _ L). cbn in A. destruct (a s) as [s1|]; [apply (B s1 s' A)|].
  unfold fewr. destruct (b s'); [exact A|intros H; contradiction].
Qed.
Lemma few_when b b' a a' : b = b' -> (b = true -> few a a') -> few (when b a) (when b' a').
Proof. intros <-. destruct b; [auto|]. intros _. apply few_nop. Qed.
Lemma few_rd f f' : (forall s o l c mo me uf ce cn fl, f' (put o l c mo me uf ce cn fl s) = f' s) -> (forall s, few (f s) (f' s)) ->
  few (rd f) (rd f').
Proof. intros E F s s' L. unfold rd. assert (L' := L). destruct L' as (o & l & c & mo & me & uf & ce & cn & fl & -> & _). rewrite E. apply F. exact L. Qed.
Lemma few_upd f : (forall s o l c mo me uf ce cn fl, f (put o l c mo me uf ce cn fl s) = put o l c mo me uf ce cn fl (f s)) ->
  (forall s, s_modules (f s) = s_modules s /\ s_members (f s) = s_members s /\ s_ufds (f s) = s_ufds s /\ s_cehs (f s) = s_cehs s /\
             s_cencs (f s) = s_cencs s /\ s_flags (f s) = s_flags s) -> few (upd f) (upd f).
Proof.
  intros F G s s' (o & l & c & mo & me & uf & ce & cn & fl & -> & I). unfold upd. rewrite F. cbn [fewr].
  exists o, l, c, mo, me, uf, ce, cn, fl. split; [reflexivity|]. destruct (G s) as (-> & -> & -> & -> & -> & ->). exact I.
Qed.
Lemma few_with_res {A} (m m' : res A) f f' : m = m' -> (forall a, m = Ok a -> few (f a) (f' a)) -> few (with_res m f) (with_res m' f').
Proof. intros <- F. destruct m; [apply F; reflexivity|]. intros s s' L H. reflexivity. Qed.
Lemma few_each {A} (f f' : A -> act) l : (forall x, In x l -> few (f x) (f' x)) -> few (each f l) (each f' l).
Proof.
  intros F. induction l; [apply few_nop|]. cbn [each]. apply few_seq; [apply F; left; reflexivity|].
  apply IHl. intros x I. apply F. right. exact I.
Qed.
Lemma few_scoped a a' : few a a' -> few (scoped a) (scoped a').
Proof.
  intros A s s' L. specialize (A _ _ L). unfold scoped. destruct (a s), (a' s'); cbn in A; try contradiction; [|exact A|exact A].
  destruct A as (o & l & c & mo & me & uf & ce & cn & fl & -> & I). destruct L as (o' & l' & c' & mo' & me' & uf' & ce' & cn' & fl' & -> & _).
  here. exact I.
Qed.
Lemma flag_eqb_eq a b : flag_eqb a b = true -> a = b.
Proof. unfold flag_eqb. destruct (flag_eq_dec a b); [auto|discriminate]. Qed.
Lemma few_flag f : few (set_flag f) (set_flag f).
Proof.
  intros s s' (o & l & c & mo & me & uf & ce & cn & fl & -> & I1 & I2 & I3 & I4 & I5 & I6 & I7). unfold set_flag, upd.
  change (s_flags (put o l c mo me uf ce cn fl s)) with fl.
  destruct (existsb (flag_eqb f) (s_flags s)) eqn:E, (existsb (flag_eqb f) fl) eqn:E'; cbn [fewr].
  - here. repeat (split; [assumption|]). assumption.
  - here. repeat (split; [assumption|]). assert (If : In f (s_flags s)) by (apply existsb_exists in E; destruct E as (g & Ig & Eg); apply flag_eqb_eq in Eg; subst; exact Ig).
    split.
    + intros x [<-|H]; [exact If|apply I6, H].
    + intros x H N. right. apply I7; assumption.
  - here. repeat (split; [assumption|]). assert (If : In f fl) by (apply existsb_exists in E'; destruct E' as (g & Ig & Eg); apply flag_eqb_eq in Eg; subst; exact Ig).
    split.
    + intros x H. right. apply I6, H.
    + intros x [<-|H] N; [exact If|apply I7; assumption].
  - here. repeat (split; [assumption|]). split.
    + intros x [<-|H]; [left; reflexivity|right; apply I6, H].
    + intros x [<-|H] N; [left; reflexivity|right; apply I7; assumption].
Qed.
Lemma few_lc x l c x' l' c' : few (add_lc x l c) (add_lc x' l' c').
Proof. intros s s' (o & l1 & c1 & mo & me & uf & ce & cn & fl & -> & I). here. exact I. Qed.
Lemma few_lc_left x l c : few (add_lc x l c) nop.
Proof. intros s s' (o & l1 & c1 & mo & me & uf & ce & cn & fl & -> & I). here. exact I. Qed.
Lemma few_lc_val x l x' l' : few (add_lc_val x l) (add_lc_val x' l').
Proof.
  assert (N' : forall x l, few nop (add_lc x l None)).
  { intros y m s s' (o & l1 & c1 & mo & me & uf & ce & cn & fl & -> & I). here. exact I. }
  unfold add_lc_val. destruct x, x'; first [apply few_nop | apply few_lc | apply few_lc_left | apply N'].
Qed.
Lemma few_lc_val_left x l : few (add_lc_val x l) nop.
Proof. unfold add_lc_val. destruct x; first [apply few_nop | apply few_lc_left]. Qed.

Section Fewer.
  Variables (c c' : config) (path : string) (src : option string) (nl : list Z)
    (sd : list (string * string) -> pyval -> res bool) (dmp dmp' : pyval -> string).
  Hypothesis More : laxer c c'.
  Hypothesis HL : In FLongV2 Lost.
  Hypothesis HF : forall f, In f (c_features c) -> ~ In f (c_features c') -> ~ Alike /\ In FUnionTypes Lost /\ In FFstringsSelfDoc Lost.
  Hypothesis Targets : targets_given c.
  Hypothesis Targets' : targets_given c'.
  Let e := mkEnv c path src nl sd dmp.
  Let e' := mkEnv c' path src nl sd dmp'.

  Lemma xm x : mem x (c_exclusions_set c) = true -> mem x (c_exclusions_set c') = true.
  Proof. destruct More as (A & _). intros M. apply mem_In, A, mem_In, M. Qed.
  Lemma x1 x : is_excluded (e_cfg e) x = true -> is_excluded (e_cfg e') x = true.
  Proof. apply xm. Qed.
  Lemma x2 f k : is_excluded_kwarg (e_cfg e') f k = is_excluded_kwarg (e_cfg e) f k.
  Proof.
    unfold is_excluded_kwarg. cbn [e_cfg e e']. match goal with |- mem ?x _ = _ => assert (K : keyword_exclusion x) by (exists f, k; reflexivity); revert K; generalize x end.
    intros x K. destruct (mem x (c_exclusions_set c)) eqn:M; [apply xm, M|]. apply Bool.not_true_iff_false in M. apply Bool.not_true_iff_false.
    intros N. apply M, mem_In. destruct More as (_ & B & _). apply (B x K). apply mem_In, N.
  Qed.
  Lemma x3 x : is_excluded_ceh (e_cfg e) x = true -> is_excluded_ceh (e_cfg e') x = true.
  Proof. apply xm. Qed.
  Lemma x4 x : is_excluded_ce (e_cfg e) x = true -> is_excluded_ce (e_cfg e') x = true.
  Proof. apply xm. Qed.
  Lemma xft x : has_feature (e_cfg e') x = has_feature (e_cfg e) x \/
    has_feature (e_cfg e) x = true /\ has_feature (e_cfg e') x = false /\ ~ Alike /\ In FUnionTypes Lost /\ In FFstringsSelfDoc Lost.
  Proof.
    destruct More as (_ & _ & A & _). unfold has_feature. cbn. destruct (mem x (c_features c)) eqn:M, (mem x (c_features c')) eqn:M'; auto.
    - right. split; [reflexivity|]. split; [reflexivity|]. apply (HF x); [apply mem_In, M|]. intros I. apply mem_In in I. congruence.
    - exfalso. apply mem_In, A, mem_In in M'. congruence.
  Qed.
  Lemma xev : c_eval_annotations (e_cfg e') = c_eval_annotations (e_cfg e).
  Proof. destruct More as (_ & _ & _ & A & _). symmetry. exact A. Qed.
  Lemma xkw s f k : kw_accepted e' s f k = kw_accepted e s f k.
  Proof. unfold kw_accepted. rewrite x2. reflexivity. Qed.

  Lemma prints (g : env) lv m en li ve pl s : targets_given (e_cfg g) -> exists o, verbose_print_v g lv m en li ve pl s = Ok (u_out o s).
  Proof.
    intros T. unfold verbose_print_v. assert (V : exists b, violates g ve = Ok b).
    { unfold violates. destruct ve; [|eauto]. destruct (c_only_show_violations (e_cfg g)) eqn:O; [|cbn; eauto].
      cbn [negb]. unfold aligned_targets. specialize (T O). destruct (c_targets (e_cfg g)) as [|t [|t2 r]]; [contradiction| |]; cbn; eauto. }
    destruct V as (b & ->). assert (Z : u_out (s_out s) s = s) by (destruct s; reflexivity).
    destruct b; [|exists (s_out s); rewrite Z; reflexivity].
    destruct (_ || _); [exists (s_out s); rewrite Z; reflexivity|].
    destruct (match en with Some x => _ | None => _ end) as [[? ?]|]; eexists; reflexivity.
  Qed.
  Lemma few_print lv m en li ve pl lv' m' en' li' ve' pl' :
    few (verbose_print_v e lv m en li ve pl) (verbose_print_v e' lv' m' en' li' ve' pl').
  Proof.
    intros s s' (o & l1 & c1 & mo & me & uf & ce & cn & fl & -> & I).
    destruct (prints e lv m en li ve pl s Targets) as (o1 & ->).
    destruct (prints e' lv' m' en' li' ve' pl' (put o l1 c1 mo me uf ce cn fl s) Targets') as (o2 & ->).
    here. exact I.
  Qed.
  Lemma few_print_left lv m en li ve pl : few (verbose_print_v e lv m en li ve pl) nop.
  Proof.
    intros s s' (o & l1 & c1 & mo & me & uf & ce & cn & fl & -> & I).
    destruct (prints e lv m en li ve pl s Targets) as (o1 & ->). here. exact I.
  Qed.
  Lemma few_print_right lv m en li ve pl : few nop (verbose_print_v e' lv m en li ve pl).
  Proof.
    intros s s' (o & l1 & c1 & mo & me & uf & ce & cn & fl & -> & I).
    destruct (prints e' lv m en li ve pl (put o l1 c1 mo me uf ce cn fl s) Targets') as (o2 & ->). here. exact I.
  Qed.
  Lemma few_no_line l a a' : (~ In l nl -> few a a') -> few (unless_no_line e l a) (unless_no_line e' l a').
  Proof.
    unfold unless_no_line. change (is_no_line e' l) with (is_no_line e l). destruct (is_no_line e l) eqn:N; [intros _; apply few_nop|].
    intros A. apply A. intros I. unfold is_no_line in N. apply Bool.not_true_iff_false in N. apply N. apply existsb_exists.
    exists l. split; [exact I|apply Z.eqb_refl].
  Qed.

  Ltac cfgs := rewrite ?x2, ?xev, ?xkw.
  Ltac s1 :=
    lazymatch goal with
    | |- few nop nop => apply few_nop
    | |- few (_ >> _) (_ >> _) => apply few_seq
    | |- few (when _ _) (when _ _) => apply few_when; [cfgs; reflexivity|intros ?C]
    | |- few (rd _) (rd _) => apply few_rd; [intros; reflexivity|intros ?s]
    | |- few (scoped _) (scoped _) => apply few_scoped
    | |- few (with_res _ _) (with_res _ _) => apply few_with_res; [reflexivity|intros ?r ?Er]
    | |- few (unless_no_line _ _ _) (unless_no_line _ _ _) => apply few_no_line; intros ?NL
    | |- few (each _ _) (each _ _) => apply few_each; intros ?x ?I
    | |- few (set_flag _) (set_flag _) => apply few_flag
    | |- few (add_lc _ _ _) (add_lc _ _ _) => apply few_lc
    | |- few (add_lc_val _ _) (add_lc_val _ _) => apply few_lc_val
    | |- few (verbose_print_v _ _ _ _ _ _ _) _ => apply few_print
    | |- few (vv _ _ _) _ => apply few_print
    | |- few (vv_pl _ _ _ _) _ => apply few_print
    | |- few (vvl _ _ _ _) _ => apply few_print
    | |- few (vvl_pl _ _ _ _) _ => apply few_print
    | |- few (vv_msg _ _) _ => apply few_print
    | |- few (vvl_msg _ _ _) _ => apply few_print
    | |- few (vvv _ _ _) _ => apply few_print
    | |- few (vvvv _ _) _ => apply few_print
    | |- few (upd _) (upd _) => apply few_upd; [intros; reflexivity|intros; repeat split; reflexivity]
    | |- few (if ?b then _ else _) (if _ then _ else _) => cfgs; destruct b eqn:?
    | |- few (match ?x with _ => _ end) (match ?x with _ => _ end) => destruct x eqn:?
    end.
  Ltac ss := repeat s1.

  (** *** What is recorded *)
  Ltac open_few := intros s s' (o & l1 & c1 & mo & me & uf & ce & cn & fl & -> & I1 & I2 & I3 & I4 & I5 & I6 & I7).
  Lemma keep_l (P : st -> Prop) : forall s, P s -> P s. Proof. auto. Qed.

  Lemma few_add_module m l k l' k' : few (add_module e m l k) (add_module e' m l' k').
  Proof.
    intros s s' L. assert (Ud : s_user_defs s' = s_user_defs s) by (destruct L as (o & l1 & c1 & mo & me & uf & ce & cn & fl & -> & _); reflexivity).
    unfold add_module, rd. rewrite Ud. destruct (mem m (s_user_defs s)); [apply few_print, L|].
    destruct (is_excluded (e_cfg e) m) eqn:X; [rewrite (x1 m X); apply few_print, L|].
    destruct L as (o & l1 & c1 & mo & me & uf & ce & cn & fl & -> & I1 & I2). change (s_modules (put o l1 c1 mo me uf ce cn fl s)) with mo.
    assert (G : forall a', (a' = nop \/ (exists x, a' = vv_msg e' x) \/ a' = upd (fun s => u_modules (s_modules s ++ [m]) s) >> add_lc (EStr m) l' k') ->
                 fewr ((if mem m (s_modules s) then nop else upd (fun s => u_modules (s_modules s ++ [m]) s) >> add_lc (EStr m) l k) s)
                      (a' (put o l1 c1 mo me uf ce cn fl s))).
    { intros a' [E|[(x & E)|E]]; subst a'.
      - destruct (mem m (s_modules s)); here; (split; [|exact I2]); [exact I1|apply incl_one, I1].
      - unfold vv_msg. destruct (prints e' 2 x None None None None (put o l1 c1 mo me uf ce cn fl s) Targets') as (o2 & ->).
        destruct (mem m (s_modules s)); here; (split; [|exact I2]); [exact I1|apply incl_one, I1].
      - destruct (mem m (s_modules s)) eqn:M; here; (split; [|exact I2]); [apply incl_in; [exact I1|apply mem_In, M]|apply incl_both, I1]. }
    apply G. destruct (is_excluded (e_cfg e') m); [right; left; eauto|]. destruct (mem m mo); auto.
  Qed.
  Lemma few_add_member m l k l' k' : few (add_member e m l k) (add_member e' m l' k').
  Proof.
    intros s s' L. assert (Ud : s_user_defs s' = s_user_defs s) by (destruct L as (o & l1 & c1 & mo & me & uf & ce & cn & fl & -> & _); reflexivity).
    unfold add_member, rd. rewrite Ud. destruct (mem m (s_user_defs s)); [apply few_print, L|].
    destruct (is_excluded (e_cfg e) m) eqn:X; [rewrite (x1 m X); apply few_print, L|].
    generalize (has_key m mod_mem_reqs_x). intros K.
    destruct L as (o & l1 & c1 & mo & me & uf & ce & cn & fl & -> & I1 & I2 & I3).
    destruct (is_excluded (e_cfg e') m).
    - unfold vv_msg. destruct (prints e' 2 ("Excluding member: " +++ m) None None None None (put o l1 c1 mo me uf ce cn fl s) Targets') as (o2 & ->).
      destruct K; here; (split; [exact I1|split; [|exact I3]]); [apply incl_one, I2|exact I2].
    - destruct K; here; (split; [exact I1|split; [|exact I3]]); [apply incl_both, I2|exact I2].
  Qed.
  Lemma few_deco x l : few (add_user_func_deco e x l) (add_user_func_deco e' x l).
  Proof.
    intros s s' L. assert (Ud : s_user_defs s' = s_user_defs s) by (destruct L as (o & l1 & c1 & mo & me & uf & ce & cn & fl & -> & _); reflexivity).
    unfold add_user_func_deco, rd. rewrite Ud. destruct (mem x (s_user_defs s)); [apply few_print, L|].
    destruct (is_excluded (e_cfg e) x) eqn:X; [rewrite (x1 x X); apply few_print, L|].
    generalize (has_key x decorator_user_functions). intros K.
    destruct L as (o & l1 & c1 & mo & me & uf & ce & cn & fl & -> & I1 & I2 & I3 & I4).
    destruct (is_excluded (e_cfg e') x).
    - unfold vv_msg. destruct (prints e' 2 ("Excluding user function decorator: " +++ x) None None None None (put o l1 c1 mo me uf ce cn fl s) Targets') as (o2 & ->).
      destruct K; here; (split; [exact I1|split; [exact I2|split; [|exact I4]]]); [apply incl_one, I3|exact I3].
    - destruct K; here; (split; [exact I1|split; [exact I2|split; [|exact I4]]]); [apply incl_both, I3|exact I3].
  Qed.
  Lemma few_ceh v l : few (add_ceh e v l) (add_ceh e' v l).
  Proof.
    unfold add_ceh. destruct (is_excluded_ceh (e_cfg e) (const_text v)) eqn:X; [rewrite (x3 _ X); apply few_print|].
    destruct (is_excluded_ceh (e_cfg e') (const_text v)).
    - apply few_both; [|apply few_print_right]. apply few_skip; [|apply few_lc_val_left].
      intros s s' (o & l1 & c1 & mo & me & uf & ce & cn & fl & -> & I1 & I2 & I3 & I4 & I5). here. repeat (split; [assumption|]). split; [apply incl_one, I4|exact I5].
    - apply few_seq; [|apply few_lc_val].
      intros s s' (o & l1 & c1 & mo & me & uf & ce & cn & fl & -> & I1 & I2 & I3 & I4 & I5). here. repeat (split; [assumption|]). split; [apply incl_both, I4|exact I5].
  Qed.
  Lemma few_cenc_left v l : few (add_cenc e v l) nop.
  Proof.
    unfold add_cenc. destruct (is_excluded_ce (e_cfg e) (const_text v)); [apply few_print_left|]. apply few_skip; [|apply few_lc_val_left].
    intros s s' (o & l1 & c1 & mo & me & uf & ce & cn & fl & -> & I1 & I2 & I3 & I4 & I5 & I6). here. repeat (split; [assumption|]). split; [apply incl_one, I5|exact I6].
  Qed.
  Lemma few_cenc v l : few (add_cenc e v l) (add_cenc e' v l).
  Proof.
    destruct (is_excluded_ce (e_cfg e') (const_text v)) eqn:X'.
    - apply few_both; [apply few_cenc_left|]. unfold add_cenc. rewrite X'. apply few_print_right.
    - unfold add_cenc. rewrite X'. destruct (is_excluded_ce (e_cfg e) (const_text v)) eqn:X; [rewrite (x4 _ X) in X'; discriminate|].
      apply few_seq; [|apply few_lc_val].
      intros s s' (o & l1 & c1 & mo & me & uf & ce & cn & fl & -> & I1 & I2 & I3 & I4 & I5 & I6). here. repeat (split; [assumption|]). split; [apply incl_both, I5|exact I6].
  Qed.
  Lemma few_each_left {A} (f : A -> act) l : (forall x, In x l -> few (f x) nop) -> few (each f l) nop.
  Proof.
    intros F. induction l; [apply few_nop|]. cbn [each]. apply few_skip; [apply F; left; reflexivity|].
    apply IHl. intros x I. apply F. right. exact I.
  Qed.
  Lemma few_codecs f a w l : few (check_codecs_function e f a w l) (check_codecs_function e' f a w l).
  Proof.
    unfold check_codecs_function, add_codecs_error_handler, add_codecs_encoding, when_const.
    apply few_seq; [ss; apply few_ceh|]. destruct (assoc f codecs_encodings_indices); [|apply few_nop]. apply few_each. intros i _.
    assert (K : few (each (fun kw => when (kw_arg_in codecs_encodings_kwargs kw) match const_val (attr "value" kw) with Some c => add_cenc e c l | None => nop end) w)
                    (each (fun kw => when (kw_arg_in codecs_encodings_kwargs kw) match const_val (attr "value" kw) with Some c => add_cenc e' c l | None => nop end) w))
      by (ss; apply few_cenc).
    destruct (option_map const_val (nth_error a i)) as [[v|]|]; [|exact K|exact K]. apply few_seq; [apply few_cenc|].
    destruct (is_excluded_ce (e_cfg e) (const_text v)) eqn:X; [rewrite (x4 _ X); apply few_nop|].
    destruct (is_excluded_ce (e_cfg e') (const_text v)); [|exact K]. cbn [negb when]. apply few_each_left. intros kw _.
    destruct (kw_arg_in codecs_encodings_kwargs kw); [|apply few_nop]. cbn [when]. destruct (const_val (attr "value" kw)); [apply few_cenc_left|apply few_nop].
  Qed.
  Lemma few_add_kwargs f k l l' : few (add_kwargs e f k l) (add_kwargs e' f k l').
  Proof. unfold add_kwargs. ss. Qed.
  Lemma few_typecodes a l k : few (add_typecodes a l k) (add_typecodes a l k).
  Proof. unfold add_typecodes, add_array_typecode. ss. Qed.
  Lemma few_user_def_node w : few (add_user_def_node w) (add_user_def_node w).
  Proof. unfold add_user_def_node, add_user_def. ss. Qed.
  Lemma few_target_defs w : few (add_target_defs w) (add_target_defs w).
  Proof. unfold add_target_defs. ss. apply few_user_def_node. Qed.
  Lemma few_assign t w : few (add_name_res_assign t w) (add_name_res_assign t w).
  Proof. unfold add_name_res_assign, add_name_res, add_name_res_type. ss. Qed.
  Lemma few_name fs : few (visit_name e fs) (visit_name e' fs).
  Proof.
    unfold visit_name. cbv zeta. destruct (String.eqb (fstr "id" fs) "long"); [|ss]. apply few_rd; [reflexivity|]. intros s0.
    destruct (is_excluded (e_cfg e) "long") eqn:X; [rewrite (x1 _ X); apply few_print|].
    destruct (is_excluded (e_cfg e') "long"); [|ss]. destruct (mem "long" (s_user_defs s0)); [apply few_print|].
    apply few_skip; [|apply few_print]. intros s s' (o & l1 & c1 & mo & me & uf & ce & cn & fl & -> & I1 & I2 & I3 & I4 & I5 & I6 & I7).
    unfold set_flag, upd, nop. destruct (existsb (flag_eqb FLongV2) (s_flags s)); here; repeat (split; [assumption|]); [exact I7|].
    split; [intros x H; right; apply I6, H|]. intros x H N. cbn [s_flags u_flags] in H. destruct H as [<-|H]; [contradiction (N HL)|apply I7; assumption].
  Qed.

  Lemma few_dump (b b' : bool) (f f' : st -> list string) :
    few (when b (upd (fun s => u_out (f s) s))) (when b' (upd (fun s => u_out (f' s) s))).
  Proof.
    intros s s' (o & l1 & c1 & mo & me & uf & ce & cn & fl & -> & I). destruct b, b'; cbn [when upd fewr nop]; unfold upd, nop; here; exact I.
  Qed.
  Lemma few_position (p p' : option (Z * Z)) :
    few (match p with Some (l, _) => upd (u_line l) | None => nop end) (match p' with Some (l, _) => upd (u_line l) | None => nop end).
  Proof.
    intros s s' (o & l1 & c1 & mo & me & uf & ce & cn & fl & -> & I). destruct p as [[z ?]|], p' as [[z' ?]|]; unfold upd, nop; here; exact I.
  Qed.
  Lemma few_generic w w' ks ks' : few (visit_fields ks) (visit_fields ks') -> few (generic_visit e w ks) (generic_visit e' w' ks').
  Proof.
    intros F. unfold generic_visit. apply few_seq; [apply few_position|]. apply few_seq; [s1|].
    apply few_seq; [apply few_dump|]. apply few_seq; [exact F|s1].
  Qed.

  (** *** Features that are enabled on request *)
  Lemma few_flag_left f : In f Lost -> few (set_flag f) nop.
  Proof.
    intros F s s' (o & l1 & c1 & mo & me & uf & ce & cn & fl & -> & I1 & I2 & I3 & I4 & I5 & I6 & I7). unfold set_flag, upd, nop.
    destruct (existsb (flag_eqb f) (s_flags s)); here; repeat (split; [assumption|]); [exact I7|].
    split; [intros x H; right; apply I6, H|]. intros x H N. cbn [s_flags u_flags] in H. destruct H as [<-|H]; [contradiction (N F)|apply I7; assumption].
  Qed.
  Lemma few_with_res_left {A} (m : res A) f : ~ Alike -> (forall a, few (f a) nop) -> few (with_res m f) nop.
  Proof. intros N F. destruct m as [a|x]; [apply F|]. intros s s' L. exact N. Qed.
  Lemma few_rd_left f : (forall s, few (f s) nop) -> few (rd f) nop.
  Proof. intros F s s' L. unfold rd. apply F, L. Qed.
  Lemma few_when_left b a : few a nop -> few (when b a) nop.
  Proof. destruct b; [auto|intros _; apply few_nop]. Qed.
  Lemma few_union (A A' : act) : few A A' -> (In FUnionTypes Lost -> ~ Alike -> few A nop) ->
    few (when (union_types_enabled e) A) (when (union_types_enabled e') A').
  Proof.
    intros F G. unfold union_types_enabled. destruct (xft "union-types") as [E|(E & E' & N & U & _)].
    - rewrite E. apply few_when; [reflexivity|intros _; exact F].
    - rewrite E, E'. cbn [when]. apply G; assumption.
  Qed.
  Lemma few_binop v fs ks ks' : few (visit_fields ks) (visit_fields ks') -> few (visit_binop e v fs ks) (visit_binop e' v fs ks').
  Proof.
    intros F. unfold visit_binop. cbv zeta. apply few_seq; [s1; ss|]. apply few_seq; [s1; ss|]. apply few_seq; [|apply few_generic, F]. apply few_when; [reflexivity|intros _].
    apply few_seq; [ss|]. apply few_union; [ss|]. intros U N. apply few_rd_left. intros s. apply few_with_res_left; [exact N|]. intros b. apply few_when_left.
    apply few_skip; [apply few_flag_left, U|apply few_print_left].
  Qed.
  Lemma few_augassign v fs ks ks' : few (visit_fields ks) (visit_fields ks') -> few (visit_augassign e v fs ks) (visit_augassign e' v fs ks').
  Proof.
    intros F. unfold visit_augassign. cbv zeta. apply few_no_line. intros _. apply few_seq; [apply few_user_def_node|]. apply few_seq; [apply few_assign|].
    apply few_seq; [|apply few_generic, F]. apply few_when; [reflexivity|intros _]. apply few_rd; [reflexivity|]. intros s.
    destruct (is_dict (s_name_res s) (fld "value" fs)); [ss|]. apply few_union; [ss|]. intros U N. apply few_with_res_left; [exact N|]. intros b. apply few_when_left.
    apply few_skip; [apply few_flag_left, U|apply few_print_left].
  Qed.
  Lemma few_joinedstr v ks ks' : few (visit_fields ks) (visit_fields ks') -> few (visit_joinedstr e v ks) (visit_joinedstr e' v ks').
  Proof.
    intros F. unfold visit_joinedstr. apply few_seq; [ss|]. apply few_seq; [ss|]. apply few_seq; [|apply few_generic, F].
    unfold fstring_self_doc_enabled. destruct (xft "fstring-self-doc") as [E|(E & E' & N & _ & U)].
    - rewrite E. ss.
    - rewrite E, E'. cbn [when]. apply few_rd_left. intros s. apply few_with_res_left; [exact N|]. intros b. apply few_when_left.
      apply few_skip; [apply few_flag_left, U|apply few_print_left].
  Qed.

  (** *** Attributes: the loop over the modules found so far *)
  Definition covered (s : st) (full : list (option string)) (m : string) : Prop :=
    if hd_is (Some m) full
    then mem (dotted full) (s_user_defs s) = true \/ is_excluded (e_cfg e) (dotted full) = true \/ In (dotted full) (s_modules s)
    else match full with
         | Some h :: _ =>
             match assoc h (s_import_mem_mod s) with
             | Some mm => let d := dotted (Some mm :: full) in
                 mem d (s_user_defs s) = true \/ is_excluded (e_cfg e) d = true \/ has_key d mod_mem_reqs_x = false \/ In d (s_members s)
             | None => True
             end
         | _ => True
         end.
  Definition grows (s s1 : st) : Prop :=
    s_user_defs s1 = s_user_defs s /\ s_import_mem_mod s1 = s_import_mem_mod s /\ (exists t, s_modules s1 = s_modules s ++ t) /\
    incl (s_members s) (s_members s1).
  Lemma grows_refl s : grows s s.
  Proof. split; [reflexivity|]. split; [reflexivity|]. split; [exists []; symmetry; apply app_nil_r|apply incl_refl]. Qed.
  Lemma grows_out o s : grows s (u_out o s).
  Proof. exact (grows_refl s). Qed.
  Lemma grows_trans s1 s2 s3 : grows s1 s2 -> grows s2 s3 -> grows s1 s3.
  Proof.
    intros (A1 & A2 & A3 & A4) (B1 & B2 & B3 & B4). unfold grows. rewrite B1, B2. split; [exact A1|]. split; [exact A2|].
    split; [|eapply incl_tran; eassumption]. destruct A3 as (t & A3), B3 as (u & B3). exists (t ++ u). rewrite B3, A3, app_assoc. reflexivity.
  Qed.
  Lemma covered_grows s s1 full m : grows s s1 -> covered s full m -> covered s1 full m.
  Proof.
    intros (G1 & G2 & G3 & G4). unfold covered. rewrite G1, G2. destruct (hd_is (Some m) full).
    - intros [C|[C|C]]; [left; exact C|right; left; exact C|right; right; destruct G3 as (t & ->); apply in_app_iff; left; exact C].
    - destruct full as [|[h|] r]; [tauto| |tauto]. destruct (assoc h (s_import_mem_mod s)) as [mm|]; [|tauto]. cbv zeta.
      intros [C|[C|[C|C]]]; [left; exact C|right; left; exact C|right; right; left; exact C|right; right; right; apply G4, C].
  Qed.

  Definition known_mod (s : st) (d : string) : Prop :=
    mem d (s_user_defs s) = true \/ is_excluded (e_cfg e) d = true \/ In d (s_modules s).
  Definition known_mem (s : st) (d : string) : Prop :=
    mem d (s_user_defs s) = true \/ is_excluded (e_cfg e) d = true \/ has_key d mod_mem_reqs_x = false \/ In d (s_members s).

  Lemma fewer_out_left o1 s s' : fewer s s' -> fewer (u_out o1 s) s'.
  Proof. intros (o & l1 & c1 & mo & me & uf & ce & cn & fl & -> & I). here. exact I. Qed.
  Lemma fewer_out_right o1 s s' : fewer s s' -> fewer s (u_out o1 s').
  Proof. intros (o & l1 & c1 & mo & me & uf & ce & cn & fl & -> & I). here. exact I. Qed.
  Lemma left_mod d line s s' : fewer s s' -> exists s1, add_module e d line None s = Ok s1 /\ fewer s1 s' /\ grows s s1 /\
    known_mod s1 d /\ (known_mod s d -> s_modules s1 = s_modules s).
  Proof.
    intros L. unfold add_module, rd, known_mod. destruct (mem d (s_user_defs s)) eqn:U.
    { unfold vvvv. edestruct (prints e) as (o1 & ->); [exact Targets|]. eexists. split; [reflexivity|]. split; [apply fewer_out_left, L|].
      split; [apply grows_out|]. split; [left; exact U|reflexivity]. }
    destruct (is_excluded (e_cfg e) d) eqn:X.
    { unfold vv_msg. edestruct (prints e) as (o1 & ->); [exact Targets|]. eexists. split; [reflexivity|]. split; [apply fewer_out_left, L|].
      split; [apply grows_out|]. split; [right; left; reflexivity|reflexivity]. }
    destruct (mem d (s_modules s)) eqn:M.
    { exists s. split; [reflexivity|]. split; [exact L|]. split; [apply grows_refl|]. split; [right; right; apply mem_In, M|reflexivity]. }
    eexists. split; [reflexivity|]. destruct L as (o & l1 & c1 & mo & me & uf & ce & cn & fl & -> & I1 & I2). split.
    { here. split; [apply incl_one, I1|exact I2]. }
    split; [split; [reflexivity|]; split; [reflexivity|]; split; [eexists; reflexivity|apply incl_refl]|].
    split; [right; right; apply in_app_iff; right; left; reflexivity|].
    intros [K|[K|K]]; try discriminate. apply mem_In in K. congruence.
  Qed.
  Lemma left_mem d line s s' : fewer s s' -> exists s1, add_member e d line None s = Ok s1 /\ fewer s1 s' /\ grows s s1 /\
    known_mem s1 d /\ s_modules s1 = s_modules s.
  Proof.
    intros L. unfold add_member, rd, known_mem. destruct (mem d (s_user_defs s)) eqn:U.
    { unfold vvvv. edestruct (prints e) as (o1 & ->); [exact Targets|]. eexists. split; [reflexivity|]. split; [apply fewer_out_left, L|].
      split; [apply grows_out|]. split; [left; exact U|reflexivity]. }
    destruct (is_excluded (e_cfg e) d) eqn:X.
    { unfold vv_msg. edestruct (prints e) as (o1 & ->); [exact Targets|]. eexists. split; [reflexivity|]. split; [apply fewer_out_left, L|].
      split; [apply grows_out|]. split; [right; left; reflexivity|reflexivity]. }
    generalize (has_key d mod_mem_reqs_x). intros [|].
    - eexists. split; [reflexivity|]. destruct L as (o & l1 & c1 & mo & me & uf & ce & cn & fl & -> & I1 & I2 & I3). split.
      { here. split; [exact I1|]. split; [apply incl_one, I2|exact I3]. }
      split; [split; [reflexivity|]; split; [reflexivity|]; split; [exists []; symmetry; apply app_nil_r|apply incl_one, incl_refl]|].
      split; [right; right; right; apply in_app_iff; right; left; reflexivity|reflexivity].
    - exists s. split; [reflexivity|]. split; [exact L|]. split; [apply grows_refl|]. split; [right; right; left; reflexivity|reflexivity].
  Qed.
  Lemma right_mod d line s s' : fewer s s' -> known_mod s d -> exists s1', add_module e' d line None s' = Ok s1' /\ fewer s s1'.
  Proof.
    intros L K. assert (Ud : s_user_defs s' = s_user_defs s) by (destruct L as (o & l1 & c1 & mo & me & uf & ce & cn & fl & -> & _); reflexivity).
    unfold add_module, rd. rewrite Ud. destruct (mem d (s_user_defs s)) eqn:U.
    { unfold vvvv. edestruct (prints e') as (o1 & ->); [exact Targets'|]. eexists. split; [reflexivity|]. apply fewer_out_right, L. }
    destruct (is_excluded (e_cfg e') d) eqn:X.
    { unfold vv_msg. edestruct (prints e') as (o1 & ->); [exact Targets'|]. eexists. split; [reflexivity|]. apply fewer_out_right, L. }
    destruct (mem d (s_modules s')); [exists s'; split; [reflexivity|exact L]|]. destruct K as [K|[K|K]]; [congruence|rewrite (x1 _ K) in X; discriminate|].
    eexists. split; [reflexivity|]. destruct L as (o & l1 & c1 & mo & me & uf & ce & cn & fl & -> & I1 & I2). here. split; [|exact I2].
    apply incl_in; assumption.
  Qed.
  Lemma right_mem d line s s' : fewer s s' -> known_mem s d -> exists s1', add_member e' d line None s' = Ok s1' /\ fewer s s1'.
  Proof.
    intros L K. assert (Ud : s_user_defs s' = s_user_defs s) by (destruct L as (o & l1 & c1 & mo & me & uf & ce & cn & fl & -> & _); reflexivity).
    unfold add_member, rd, known_mem in *. rewrite Ud. destruct (mem d (s_user_defs s)) eqn:U.
    { unfold vvvv. edestruct (prints e') as (o1 & ->); [exact Targets'|]. eexists. split; [reflexivity|]. apply fewer_out_right, L. }
    destruct (is_excluded (e_cfg e') d) eqn:X.
    { unfold vv_msg. edestruct (prints e') as (o1 & ->); [exact Targets'|]. eexists. split; [reflexivity|]. apply fewer_out_right, L. }
    revert K. generalize (has_key d mod_mem_reqs_x). intros [|] K; [|exists s'; split; [reflexivity|exact L]].
    destruct K as [K|[K|[K|K]]]; [congruence|rewrite (x1 _ K) in X; discriminate|discriminate|].
    eexists. split; [reflexivity|]. destruct L as (o & l1 & c1 & mo & me & uf & ce & cn & fl & -> & I1 & I2 & I3). here. split; [exact I1|]. split; [|exact I3].
    apply incl_in; assumption.
  Qed.
  Lemma left_step full line m s s' : fewer s s' -> exists s1, attr_module e full line m s = Ok s1 /\ fewer s1 s' /\ grows s s1 /\
    covered s1 full m /\ (hd_is (Some m) full = false \/ covered s full m -> s_modules s1 = s_modules s).
  Proof.
    intros L. unfold attr_module, covered. unfold rd at 1. destruct (hd_is (Some m) full).
    - destruct (left_mod (dotted full) line s s' L) as (s1 & A & B & C & D & E). exists s1. repeat (split; [assumption|]).
      intros [H|H]; [discriminate|exact (E H)].
    - assert (Z : exists s1, nop s = Ok s1 /\ fewer s1 s' /\ grows s s1 /\ True /\ (false = false \/ True -> s_modules s1 = s_modules s)).
      { exists s. split; [reflexivity|]. split; [exact L|]. split; [apply grows_refl|]. split; [exact I|reflexivity]. }
      destruct full as [|[h|] r]; [exact Z| |exact Z]. destruct (assoc h (s_import_mem_mod s)) as [mm|] eqn:Q.
      + destruct (left_mem (dotted (Some mm :: Some h :: r)) line s s' L) as (s1 & A & B & C & D & E). exists s1. repeat (split; [assumption|]).
        destruct C as (C1 & C2 & C3). rewrite C2, Q. split; [exact D|intros _; exact E].
      + exists s. rewrite Q. split; [reflexivity|]. split; [exact L|]. split; [apply grows_refl|]. split; [exact I|reflexivity].
  Qed.
  Lemma right_step full line m s s' : fewer s s' -> covered s full m -> exists s1', attr_module e' full line m s' = Ok s1' /\ fewer s s1'.
  Proof.
    intros L. assert (Ui : s_import_mem_mod s' = s_import_mem_mod s) by (destruct L as (o & l1 & c1 & mo & me & uf & ce & cn & fl & -> & _); reflexivity).
    unfold attr_module, covered. unfold rd at 1. rewrite Ui.
    destruct (hd_is (Some m) full); [apply right_mod, L|].
    assert (Z : exists s1', nop s' = Ok s1' /\ fewer s s1') by (exists s'; split; [reflexivity|exact L]).
    destruct full as [|[h|] r]; [intros _; exact Z| |intros _; exact Z]. destruct (assoc h (s_import_mem_mod s)) as [mm|]; [|intros _; exact Z].
    apply right_mem, L.
  Qed.
  Lemma left_steps full line l : forall s s', fewer s s' -> exists s1, each (attr_module e full line) l s = Ok s1 /\ fewer s1 s' /\ grows s s1 /\
    (forall m, In m l -> covered s1 full m) /\
    ((forall m, In m l -> hd_is (Some m) full = false \/ covered s full m) -> s_modules s1 = s_modules s).
  Proof.
    induction l as [|m l IH]; intros s s' L.
    - exists s. split; [reflexivity|]. split; [exact L|]. split; [apply grows_refl|]. split; [intros m []|reflexivity].
    - destruct (left_step full line m s s' L) as (s1 & E1 & L1 & G1 & C1 & M1). destruct (IH s1 s' L1) as (s2 & E2 & L2 & G2 & C2 & M2).
      exists s2. cbn [each]. unfold seq. rewrite E1. split; [exact E2|]. split; [exact L2|]. split; [exact (grows_trans _ _ _ G1 G2)|]. split.
      + intros x [<-|I]; [exact (covered_grows _ _ _ _ G2 C1)|exact (C2 x I)].
      + intros H. rewrite M2; [apply M1, H; left; reflexivity|]. intros x I. destruct (H x (or_intror I)) as [K|K]; [left; exact K|right].
        exact (covered_grows _ _ _ _ G1 K).
  Qed.
  Lemma right_steps full line l : forall s s', fewer s s' -> (forall m, In m l -> covered s full m) ->
    exists s1', each (attr_module e' full line) l s' = Ok s1' /\ fewer s s1'.
  Proof.
    induction l as [|m l IH]; intros s s' L C; [exists s'; split; [reflexivity|exact L]|].
    destruct (right_step full line m s s' L (C m (or_introl eq_refl))) as (s1 & E1 & L1).
    destruct (IH s s1 L1 (fun x I => C x (or_intror I))) as (s2 & E2 & L2). exists s2. cbn [each]. unfold seq. rewrite E1. split; assumption.
  Qed.
  Lemma hd_is_two m n full : hd_is (Some m) full = true -> hd_is (Some n) full = true -> m = n.
  Proof. destruct full as [|[h|] r]; cbn; try discriminate. intros A B. apply String.eqb_eq in A, B. congruence. Qed.

  Lemma few_loops full line s s' : fewer s s' ->
    fewr ((each (attr_module e full line) (s_modules s) >>
           rd (fun s1 => each (attr_module e full line) (skipn (List.length (s_modules s)) (s_modules s1)))) s)
         ((each (attr_module e' full line) (s_modules s') >>
           rd (fun s1 => each (attr_module e' full line) (skipn (List.length (s_modules s')) (s_modules s1)))) s').
  Proof.
    intros L. destruct (left_steps full line (s_modules s) s s' L) as (s1 & E1 & L1 & G1 & C1 & M1).
    destruct (left_steps full line (skipn (List.length (s_modules s)) (s_modules s1)) s1 s' L1) as (s2 & E2 & L2 & G2 & C2 & M2).
    assert (P : exists t, s_modules s1 = s_modules s ++ t) by apply G1.
    assert (M : s_modules s2 = s_modules s1 /\ forall m, In m (s_modules s1) -> covered s2 full m).
    { split.
      - destruct (existsb (fun m => hd_is (Some m) full) (s_modules s)) eqn:X.
        + apply existsb_exists in X as (h & Ih & Hh). apply M2. intros m I. destruct (hd_is (Some m) full) eqn:H; [right|left; reflexivity].
          rewrite <- (hd_is_two _ _ _ Hh H). apply C1, Ih.
        + assert (Q : s_modules s1 = s_modules s).
          { apply M1. intros m I. left. destruct (hd_is (Some m) full) eqn:H; [|reflexivity]. exfalso.
            assert (existsb (fun m => hd_is (Some m) full) (s_modules s) = true) by (apply existsb_exists; exists m; split; assumption). congruence. }
          apply M2. rewrite Q, skipn_all. intros m [].
      - destruct P as (t & P). intros m I. rewrite P, skipn_app, skipn_all, Nat.sub_diag in C2. cbn [app skipn] in C2. rewrite P in I.
        apply in_app_iff in I as [I|I]; [apply (covered_grows _ _ _ _ G2), C1, I|apply C2, I]. }
    destruct M as (M & C). unfold seq. rewrite E1. unfold rd at 1. rewrite E2.
    assert (Inc : forall t, fewer s2 t -> incl (s_modules t) (s_modules s1)).
    { intros t (o & l1 & c1 & mo & me & uf & ce & cn & fl & -> & I1 & _). rewrite <- M. exact I1. }
    destruct (right_steps full line (s_modules s') s2 s' L2) as (s1' & E1' & L1').
    { intros m I. apply C, (Inc s' L2), I. }
    rewrite E1'. unfold rd at 1. destruct (right_steps full line (skipn (List.length (s_modules s')) (s_modules s1')) s2 s1' L1') as (s2' & E2' & L2').
    { intros m I. apply C, (Inc s1' L1'). rewrite <- (firstn_skipn (List.length (s_modules s')) (s_modules s1')). apply in_app_iff. right. exact I. }
    rewrite E2'. exact L2'.
  Qed.

  Lemma few_attribute v ks ks' : few (visit_fields ks) (visit_fields ks') -> few (visit_attribute e v ks) (visit_attribute e' v ks').
  Proof.
    intros F. unfold visit_attribute. cbv zeta. apply few_seq; [|apply few_generic, F]. intros s s' L. unfold rd at 1. unfold rd at 2.
    replace (s_module_as_name s') with (s_module_as_name s) by (destruct L as (o & l1 & c1 & mo & me & uf & ce & cn & fl & -> & _); reflexivity).
    destruct (get_attribute_name (s_module_as_name s) v) as [full|x]; [|intros _; reflexivity]. cbn [with_res].
    destruct (negb (List.length full =? 0)%nat); [|exact L]. cbn [when].
    assert (H := few_loops full (lineno v) s s' L).
    assert (Z : few (add_member e (dotted full) (lineno v) None >> attr_resolve e full (lineno v))
                    (add_member e' (dotted full) (lineno v) None >> attr_resolve e' full (lineno v))).
    { apply few_seq; [apply few_add_member|]. unfold attr_resolve. ss; apply few_add_member. }
    rewrite !(seq_assoc (each _ _)). exact (fewr_then _ _ _ _ _ _ H Z).
  Qed.

  Section Node.
    Variables (k : kind) (u : N) (pos : option (Z * Z)) (fs : list (string * pyval)) (ks ks' : list (string * ksem)).
    Hypothesis HV : few (visit_fields ks) (visit_fields ks').
    Hypothesis HD : few (visit_fields (drop_returns ks)) (visit_fields (drop_returns ks')).
    Hypothesis HT : few (each k_visit (k_list (kid "finalbody" ks))) (each k_visit (k_list (kid "finalbody" ks'))).
    Hypothesis HG : k = KClassDef -> few (each k_gvisit (k_list (kid "body" ks))) (each k_gvisit (k_list (kid "body" ks'))).

    Lemma few_generic_here w w' : few (generic_visit e w ks) (generic_visit e' w' ks').
    Proof. apply few_generic, HV. Qed.
    Lemma few_generic_drop w w' : few (generic_visit e w (drop_returns ks)) (generic_visit e' w' (drop_returns ks')).
    Proof. apply few_generic, HD. Qed.
    Lemma few_annotations line l : few (arg_annotations e line l) (arg_annotations e' line l).
    Proof. induction l as [|a l IH]; cbn [arg_annotations]; ss; exact IH. Qed.

    Lemma few_call w w' : few (visit_call e w pos fs ks) (visit_call e' w' pos fs ks').
    Proof.
      unfold visit_call, call_name, call_attribute, check_gen_unp_call, gen_unpacking, push_fn, pop_fn, strftime_arg,
        add_strftime_directive, when_const. ss; try apply few_generic_here; try apply few_codecs; try apply few_typecodes; try apply few_add_member.
      all: intros ? ? ? ?; reflexivity.
    Qed.

    Lemma few_keyword w w' : few (visit_keyword e w fs ks) (visit_keyword e' w' fs ks').
    Proof.
      intros s s' L. unfold visit_keyword, rd.
      assert (K : forall x, kw_function s' x = kw_function s x) by (intros x; destruct L as (o & l1 & c1 & mo & me & uf & ce & cn & fl & -> & _); reflexivity).
      assert (Q : forall f, few (each (fun func => add_kwargs e (kw_function s func) (as_ostr (fld "arg" fs)) (s_line s)) f)
                                (each (fun func => add_kwargs e' (kw_function s' func) (as_ostr (fld "arg" fs)) (s_line s')) f)).
      { intros f. apply few_each. intros x _. rewrite K. apply few_add_kwargs. }
      assert (Fn : s_fns s' = s_fns s) by (destruct L as (o & l1 & c1 & mo & me & uf & ce & cn & fl & -> & _); reflexivity). rewrite Fn.
      refine (few_seq _ _ _ _ (Q _) _ s s' L). apply few_when; [|intros _; apply few_generic_here].
      clear Fn. induction (s_fns s) as [|f r IH]; [reflexivity|]. cbn [existsb]. rewrite xkw, IH, K.
      destruct L as (o & l1 & c1 & mo & me & uf & ce & cn & fl & -> & _). reflexivity.
    Qed.

    Ltac leaf :=
      first
      [ apply few_generic_here | apply few_generic_drop | apply few_add_module | apply few_add_member | apply few_codecs | apply few_typecodes
      | apply few_target_defs | apply few_user_def_node | apply few_assign | apply few_deco | apply few_annotations
      | apply few_keyword | apply few_call | exact HT | apply HG; reflexivity ].
    Ltac unf :=
      unfold visit_import, visit_import_from, gen_unpacking, check_gen_unp_seq, check_gen_unp_dict,
        visit_constant, visit_ellipsis,
        add_bytes_directive, visit_assign, visit_annassign, check_relaxed_decorators, check_user_func_decorators,
        visit_functiondef, visit_asyncfunctiondef, handle_functiondef, visit_await, visit_classdef, visit_namedexpr, add_arg_def,
        visit_arguments, visit_nonlocal, visit_yieldfrom, visit_match, visit_typealias, visit_yield, add_names_as_members,
        visit_raise, visit_excepthandler, visit_setcomp, visit_dictcomp, comp_scope, visit_comprehension, visit_matmult,
        visit_continue, visit_with, visit_asyncwith, handle_with, visit_dict, visit_set, visit_seq, check_gen_unp_seq,
        check_gen_unp_dict, gen_unpacking, check_builtin_generic, generic_match, visit_subscript, visit_cond, visit_asyncfor,
        handle_for, visit_while, visit_try, visit_starred, add_user_def, add_name_res, add_name_res_type, 
        check_relaxed_decorators, add_names_as_members, check_builtin_generic, generic_match, add_arg_def.

    Lemma few_handler : few (handler e k u pos fs ks) (handler e' k u pos fs ks').
    Proof.
      destruct k; cbn [handler]; try apply few_nop; try apply few_generic_here; try leaf; try apply few_name;
        try (apply few_attribute, HV); try (apply few_binop, HV); try (apply few_augassign, HV); try (apply few_joinedstr, HV).
      all: unf; ss; try leaf.
      all: try match goal with |- context [first_deco_line e' ?x] => change (first_deco_line e' x) with (first_deco_line e x);
        unf; ss; try leaf end.
    Qed.
  End Node.

  Definition alike (v : pyval) : Prop :=
    few (k_visit (sem e v)) (k_visit (sem e' v)) /\ few (k_gvisit (sem e v)) (k_gvisit (sem e' v)) /\
    few (visit_field (sem e v)) (visit_field (sem e' v)) /\
    few (each k_visit (k_list (sem e v))) (each k_visit (k_list (sem e' v))) /\
    few (each k_gvisit (k_list (sem e v))) (each k_gvisit (k_list (sem e' v))).
  Definition kids (g : env) (fs : list (string * pyval)) : list (string * ksem) := map (fun fx => (fst fx, sem g (snd fx))) fs.
  Definition alike_fields (fs : list (string * pyval)) : Prop :=
    few (visit_fields (kids e fs)) (visit_fields (kids e' fs)) /\
    few (visit_fields (drop_returns (kids e fs))) (visit_fields (drop_returns (kids e' fs))) /\
    (forall f, few (each k_visit (k_list (kid f (kids e fs)))) (each k_visit (k_list (kid f (kids e' fs))))) /\
    (forall f, few (each k_gvisit (k_list (kid f (kids e fs)))) (each k_gvisit (k_list (kid f (kids e' fs))))).

  Lemma alike_cons f x fs : alike x -> alike_fields fs -> alike_fields ((f, x) :: fs).
  Proof.
    intros (_ & _ & V & L & G) (A1 & A2 & A3 & A4). split; [|split; [|split]].
    - exact (few_seq _ _ _ _ V A1).
    - unfold drop_returns, visit_fields in *. cbn [kids map fst snd each]. destruct (String.eqb f "returns").
      + exact (few_seq _ _ _ _ few_nop A2).
      + exact (few_seq _ _ _ _ V A2).
    - intros g. unfold kid. cbn [kids map fst snd assoc]. destruct (String.eqb g f); [exact L|exact (A3 g)].
    - intros g. unfold kid. cbn [kids map fst snd assoc]. destruct (String.eqb g f); [exact G|exact (A4 g)].
  Qed.
  Lemma alike_all v : alike v.
  Proof.
    induction v as [ |b|z|s|s|s|s| |l IH|k u p fs IH] using pyval_rect';
      try (split; [apply few_nop|split; [apply few_nop|split; [apply few_nop|split; apply few_nop]]]; fail).
    - assert (L : few (each k_visit (map (sem e) l)) (each k_visit (map (sem e') l)) /\
                  few (each k_gvisit (map (sem e) l)) (each k_gvisit (map (sem e') l))).
      { induction IH as [|x r X _ [IH1 IH2]]; [split; apply few_nop|]. destruct X as (X1 & X2 & _).
        split; [exact (few_seq _ _ _ _ X1 IH1)|exact (few_seq _ _ _ _ X2 IH2)]. }
      destruct L as [L1 L2]. split; [apply few_nop|]. split; [apply few_nop|]. split; [exact L1|]. split; [exact L1|exact L2].
    - assert (F : alike_fields fs).
      { induction IH as [|[f x] r X _ IH]; [split; [apply few_nop|]; split; [apply few_nop|]; split; intros; apply few_nop|].
        apply alike_cons; assumption. }
      destruct F as (A1 & A2 & A3 & A4).
      assert (S : few (k_visit (sem e (VNode k u p fs))) (k_visit (sem e' (VNode k u p fs)))).
      { cbn [sem k_visit]. apply few_handler; try assumption; [exact (A3 "finalbody")|]. intros _. exact (A4 "body"). }
      split; [exact S|]. split; [cbn [sem k_gvisit]; apply few_generic, A1|]. split; [exact S|]. split; exact few_nop.
  Qed.

  Lemma prints_all g ud w l : targets_given (e_cfg g) -> forall s, exists o,
    each (fun _ : string => vvvv g ("Ignoring " +++ w +++ " '" +++ ud +++ "' because it's user-defined!")) l s = Ok (u_out o s).
  Proof.
    intros T. induction l as [|x l IH]; intros s; [exists (s_out s); destruct s; reflexivity|]. cbn [each]. unfold seq, vvvv at 1.
    edestruct (prints g) as (o & ->); [exact T|]. destruct (IH (u_out o s)) as (o1 & ->). exists o1. destruct s; reflexivity.
  Qed.
  Lemma incl_filter {A} (f : A -> bool) l l' : incl l' l -> incl (filter f l') (filter f l).
  Proof. intros I x H. apply filter_In in H as [H F]. apply filter_In. split; [apply I, H|exact F]. Qed.
  Lemma few_after : few (after_visit_all e) (after_visit_all e').
  Proof.
    unfold after_visit_all. apply few_rd; [reflexivity|]. intros s0. apply few_each. intros ud _. apply few_seq.
    - intros s s' L. unfold drop_user_def, rd, seq. edestruct (prints_all e ud "module" (filter (String.eqb ud) (s_modules s)) Targets s) as (o1 & ->).
      edestruct (prints_all e' ud "module" (filter (String.eqb ud) (s_modules s')) Targets' s') as (o2 & ->).
      destruct L as (o & l1 & c1 & mo & me & uf & ce & cn & fl & -> & I1 & I2). here. split; [apply incl_filter, I1|exact I2].
    - intros s s' L. unfold drop_user_def, rd, seq. edestruct (prints_all e ud "member" (filter (String.eqb ud) (s_members s)) Targets s) as (o1 & ->).
      edestruct (prints_all e' ud "member" (filter (String.eqb ud) (s_members s')) Targets' s') as (o2 & ->).
      destruct L as (o & l1 & c1 & mo & me & uf & ce & cn & fl & -> & I1 & I2 & I3). here. split; [exact I1|]. split; [apply incl_filter, I2|exact I3].
  Qed.
  Lemma fewer_refl s : fewer s s.
  Proof. exists (s_out s), (s_line s), (s_lcs s), (s_modules s), (s_members s), (s_ufds s), (s_cehs s), (s_cencs s), (s_flags s).
    split; [destruct s; reflexivity|]. repeat (split; [apply incl_refl|]). auto. Qed.
  Lemma tour_fewer v : fewr (tour e v) (tour e' v).
  Proof. unfold tour. apply (few_seq _ _ _ _ (proj1 (alike_all v)) few_after), fewer_refl. Qed.
  Lemma fewer_less s s' : fewer s s' -> records_less Lost s' s.
  Proof. intros (o & l1 & c1 & mo & me & uf & ce & cn & fl & -> & I1 & I2 & I3 & I4 & I5 & I6 & I7). repeat (split; [assumption || reflexivity|]). exact I7. Qed.
End Fewer.
End Base.
