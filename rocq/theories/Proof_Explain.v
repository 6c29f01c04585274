(** The lines about a source tell of what the verdict on it rests on. Lemmas for C63. *)
From Verif Require Import PyBase PyLemmas Utility RulesData Rules Config Formats Paths AstKinds Ast State Visitor MinVersions
  Spec_Base Spec_Visitor Spec_MinVersions Spec_Explain Spec_Utility Spec_Detection Spec_Formats Proof_Utility Proof_Formats Proof_Runs Proof_Claims Proof_MinVersions.

(** Features without a line that says their versions. *)
Definition unsaid : list flag := [FLongV2; FPrintV3; FMaybeAnnotations; FModuleDir; FModuleGetattr].

Section Tells.
  Variable e : env.
  Notation cfg := (e_cfg e).

  Definition of_feature (F : list flag) (r : mins) : Prop := exists f, In f F /\ documented f r.
  Definition sound (F : list flag) (line : string) : Prop :=
    c_print_visits cfg = true \/ tells_of e None line \/ exists r, of_feature F r /\ tells_of e (Some r) line.
  Definition backed (F : list flag) (O : list string) (f : flag) : Prop :=
    forall m, documented f m -> exists r, mins_le m r /\ of_feature F r /\ (violates e (Some r) = Ok true -> explained e O r).
  Definition tells (s s' : st) : Prop :=
    incl (s_flags s) (s_flags s') /\ incl (s_out s) (s_out s') /\
    (forall l, In l (s_out s') -> In l (s_out s) \/ sound (s_flags s') l) /\
    (outspoken cfg -> forall f, In f (s_flags s') -> In f (s_flags s) \/ In f unsaid \/ backed (s_flags s') (s_out s') f).

  Lemma of_feature_mono F F' r : incl F F' -> of_feature F r -> of_feature F' r.
  Proof. intros I (f & J & D). exists f. auto. Qed.
  Lemma sound_mono F F' l : incl F F' -> sound F l -> sound F' l.
  Proof. intros I [H|[H|(r & O & T)]]; [left; exact H|right; left; exact H|]. right. right. exists r. split; [exact (of_feature_mono _ _ _ I O)|exact T]. Qed.
  Lemma explained_mono O O' r : incl O O' -> explained e O r -> explained e O' r.
  Proof. intros I (l & J & T). exists l. auto. Qed.
  Lemma backed_mono F F' O O' f : incl F F' -> incl O O' -> backed F O f -> backed F' O' f.
  Proof.
    intros I J B m D. destruct (B m D) as (r & L & Fr & X). exists r. split; [exact L|]. split; [exact (of_feature_mono _ _ _ I Fr)|].
    intros V. exact (explained_mono _ _ _ J (X V)).
  Qed.
  Lemma tells_refl s : tells s s.
  Proof. split; [apply incl_refl|]. split; [apply incl_refl|]. split; auto. Qed.
  Lemma tells_tran s1 s2 s3 : tells s1 s2 -> tells s2 s3 -> tells s1 s3.
  Proof.
    intros (A1 & A2 & A3 & A4) (B1 & B2 & B3 & B4).
    split; [eapply incl_tran; eassumption|]. split; [eapply incl_tran; eassumption|]. split.
    - intros l I. destruct (B3 l I) as [J|J]; [|right; exact J]. destruct (A3 l J) as [K|K]; [left; exact K|right; exact (sound_mono _ _ _ B1 K)].
    - intros Ou f I. destruct (B4 Ou f I) as [J|J]; [|right; exact J]. destruct (A4 Ou f J) as [K|[K|K]]; [left; exact K|right; left; exact K|].
      right. right. exact (backed_mono _ _ _ _ _ B1 B2 K).
  Qed.
  Lemma tells_same s s' : s_flags s' = s_flags s -> s_out s' = s_out s -> tells s s'.
  Proof. intros A B. unfold tells. rewrite A, B. split; [apply incl_refl|]. split; [apply incl_refl|]. split; auto. Qed.

  Definition told (a : act) : Prop := forall s s', a s = Ok s' -> tells s s'.
  Lemma told_nop : told nop.
  Proof. intros s s' E. injection E as <-. apply tells_refl. Qed.
  Lemma told_fail x : told (fail x).
  Proof. intros s s' E. discriminate. Qed.
  Lemma told_seq a b : told a -> told b -> told (a >> b).
  Proof. intros X Y s s' E. destruct (seq_ok _ _ _ _ E) as (s1 & E1 & E2). exact (tells_tran _ _ _ (X _ _ E1) (Y _ _ E2)). Qed.
  Lemma told_when b a : told a -> told (when b a).
  Proof. destruct b; [auto|]. intros _. apply told_nop. Qed.
  Lemma told_rd f : (forall s, told (f s)) -> told (rd f).
  Proof. intros F s s' E. exact (F s s s' E). Qed.
  Lemma told_with_res {A} (m : res A) f : (forall a, told (f a)) -> told (with_res m f).
  Proof. intros F. destruct m; [apply F|apply told_fail]. Qed.
  Lemma told_each {A} (f : A -> act) l : (forall x, In x l -> told (f x)) -> told (each f l).
  Proof.
    induction l as [|x r IH]; intros F; [apply told_nop|]. cbn [each]. apply told_seq; [apply F; left; reflexivity|].
    apply IH. intros y I. apply F. right. exact I.
  Qed.
  Lemma told_upd f : (forall s, s_flags (f s) = s_flags s /\ s_out (f s) = s_out s) -> told (upd f).
  Proof. intros H s s' E. injection E as <-. destruct (H s). apply tells_same; assumption. Qed.
  Lemma told_scoped a : told a -> told (scoped a).
  Proof.
    intros X s s' E. unfold scoped in E. destruct (a s) as [s1|] eqn:E1; [|discriminate]. injection E as <-.
    refine (tells_tran _ _ _ (X _ _ E1) _). apply tells_same; reflexivity.
  Qed.
  Lemma told_no_line l a : told a -> told (unless_no_line e l a).
  Proof. intros X. unfold unless_no_line. destruct (is_no_line e l); [apply told_nop|exact X]. Qed.

  (** *** Lines *)
  Lemma print_cases lv msg ent li ve pl s s' : verbose_print_v e lv msg ent li ve pl s = Ok s' ->
    s_flags s' = s_flags s /\
    ((s_out s' = s_out s /\ (violates e ve = Ok true -> outspoken cfg -> 3 < lv)) \/ exists l, s_out s' = s_out s ++ [l] /\ tells_of e ve l).
  Proof.
    intros E. unfold verbose_print_v in E.
    destruct (violates e ve) as [[|]|]; try discriminate; [|injection E as <-; split; [reflexivity|left; split; [reflexivity|discriminate]]].
    destruct (skip_output_line cfg || (c_verbose cfg <? lv)) eqn:S.
    - injection E as <-. split; [reflexivity|]. left. split; [reflexivity|]. intros _ (Q & V). apply orb_prop in S as [S|S].
      + unfold skip_output_line in S. destruct Q as [Q|Q]; rewrite Q in S; [discriminate|]. destruct (c_format cfg); discriminate.
      + apply Z.ltb_lt in S. lia.
    - destruct (match ent with Some x => _ | None => _ end) as [[? ?]|]; injection E as <-; (split; [reflexivity|]); right; eexists; (split; [reflexivity|]);
        eexists _, _, _, _; reflexivity.
  Qed.
  Lemma told_note lv msg ent li pl : told (verbose_print_v e lv msg ent li None pl).
  Proof.
    intros s s' E. destruct (print_cases _ _ _ _ _ _ _ _ E) as (F & [(O & _)|(l & O & T)]); [apply tells_same; assumption|].
    unfold tells. rewrite F, O. split; [apply incl_refl|]. split; [apply incl_appl, incl_refl|]. split; [|auto].
    intros x I. apply in_app_or in I as [I|[<-|[]]]; [left; exact I|]. right. right. left. exact T.
  Qed.
  Lemma flag_in f s s' : set_flag f s = Ok s' -> s_out s' = s_out s /\ incl (s_flags s) (s_flags s') /\ In f (s_flags s') /\
    forall g, In g (s_flags s') -> In g (s_flags s) \/ g = f.
  Proof.
    intros E. unfold set_flag, upd in E. injection E as <-. destruct (existsb (flag_eqb f) (s_flags s)) eqn:X.
    - apply existsb_exists in X as (y & J & Y). unfold flag_eqb in Y. destruct (flag_eq_dec f y) as [->|]; [|discriminate].
      split; [reflexivity|]. split; [apply incl_refl|]. auto.
    - cbn. split; [reflexivity|]. split; [apply incl_tl, incl_refl|]. split; [left; reflexivity|]. intros g [<-|I]; auto.
  Qed.
  Lemma told_unsaid f : In f unsaid -> told (set_flag f).
  Proof.
    intros U s s' E. destruct (flag_in _ _ _ E) as (O & I & J & G). unfold tells. rewrite O. split; [exact I|]. split; [apply incl_refl|].
    split; [auto|]. intros _ g Ig. destruct (G g Ig) as [K| ->]; auto.
  Qed.
  (** A feature, then its line. *)
  Lemma told_flag f lv msg ent li m pl : documented f m -> lv <= 3 ->
    told (set_flag f >> verbose_print_v e lv msg ent li (Some m) pl).
  Proof.
    intros D Lv s s' E. destruct (seq_ok _ _ _ _ E) as (s1 & E1 & E2). destruct (flag_in _ _ _ E1) as (O & I & J & G).
    destruct (print_cases _ _ _ _ _ _ _ _ E2) as (F & C). unfold tells. rewrite F. split; [exact I|].
    assert (Fe : of_feature (s_flags s1) m) by (exists f; auto).
    assert (B : outspoken cfg -> (violates e (Some m) = Ok true -> explained e (s_out s') m) ->
      forall g, In g (s_flags s1) -> In g (s_flags s) \/ In g unsaid \/ backed (s_flags s1) (s_out s') g).
    { intros _ X g Ig. destruct (G g Ig) as [K| ->]; [left; exact K|]. right. right. intros m' D'. rewrite (documented_fun _ _ _ D' D).
      exists m. split; [apply mins_le_refl|]. auto. }
    destruct C as [(O' & V)|(l & O' & T)].
    - rewrite O', O. split; [apply incl_refl|]. split; [auto|]. intros Ou. rewrite O', O in B. apply B; [exact Ou|].
      intros Vi. specialize (V Vi Ou). lia.
    - split; [rewrite O', O; apply incl_appl, incl_refl|]. split.
      + rewrite O', O. intros x Ix. apply in_app_or in Ix as [Ix|[<-|[]]]; [left; exact Ix|]. right. right. right. exists m. auto.
      + intros Ou. apply B; [exact Ou|]. intros _. exists l. split; [rewrite O'; apply in_or_app; right; left; reflexivity|exact T].
  Qed.
  Lemma told_cut a b c : told (a >> b) -> told c -> told (a >> (b >> c)).
  Proof.
    intros X Y s s' E. destruct (seq_ok _ _ _ _ E) as (s1 & E1 & R). destruct (seq_ok _ _ _ _ R) as (s2 & E2 & E3).
    refine (tells_tran _ _ _ (X s s2 _) (Y _ _ E3)). unfold Visitor.seq. rewrite E1. exact E2.
  Qed.
  (** The other way round. *)
  Lemma told_line_flag f lv msg ent li m pl : documented f m -> lv <= 3 ->
    told (verbose_print_v e lv msg ent li (Some m) pl >> set_flag f).
  Proof.
    intros D Lv s s' E. destruct (seq_ok _ _ _ _ E) as (s1 & E1 & E2). destruct (flag_in _ _ _ E2) as (O & I & J & G).
    destruct (print_cases _ _ _ _ _ _ _ _ E1) as (F & C). unfold tells. rewrite F in I, G. split; [exact I|].
    assert (Fe : of_feature (s_flags s') m) by (exists f; auto).
    assert (B : outspoken cfg -> (violates e (Some m) = Ok true -> explained e (s_out s') m) ->
      forall g, In g (s_flags s') -> In g (s_flags s) \/ In g unsaid \/ backed (s_flags s') (s_out s') g).
    { intros _ X g Ig. destruct (G g Ig) as [K| ->]; [left; exact K|]. right. right. intros m' D'. rewrite (documented_fun _ _ _ D' D).
      exists m. split; [apply mins_le_refl|]. auto. }
    destruct C as [(O' & V)|(l & O' & T)].
    - rewrite O, O'. split; [apply incl_refl|]. split; [auto|]. intros Ou. rewrite O, O' in B. apply B; [exact Ou|].
      intros Vi. specialize (V Vi Ou). lia.
    - split; [rewrite O, O'; apply incl_appl, incl_refl|]. split.
      + rewrite O, O'. intros x Ix. apply in_app_or in Ix as [Ix|[<-|[]]]; [left; exact Ix|]. right. right. right. exists m. auto.
      + intros Ou. apply B; [exact Ou|]. intros _. exists l. split; [rewrite O, O'; apply in_or_app; right; left; reflexivity|exact T].
  Qed.
  (** A feature that comes with a later one has no line of its own. *)
  Lemma told_two f g m n lv msg ent li pl : documented f m -> documented g n -> mins_le m n -> lv <= 3 ->
    told (set_flag f >> (set_flag g >> verbose_print_v e lv msg ent li (Some n) pl)).
  Proof.
    intros Df Dg Le Lv s s' E. destruct (seq_ok _ _ _ _ E) as (s1 & E1 & E2). pose proof (told_flag g lv msg ent li n pl Dg Lv _ _ E2) as (A & B & C & D).
    destruct (flag_in _ _ _ E1) as (O & I & J & G). destruct (seq_ok _ _ _ _ E2) as (s2 & E3 & E4). destruct (flag_in _ _ _ E3) as (O2 & I2 & J2 & G2).
    destruct (print_cases _ _ _ _ _ _ _ _ E4) as (F & Cs).
    split; [eapply incl_tran; eassumption|]. rewrite O in B, C. split; [exact B|]. split; [exact C|]. intros Ou h Ih.
    destruct (D Ou h Ih) as [K|K]; [|right; exact K]. destruct (G h K) as [K'| ->]; [left; exact K'|]. right. right.
    intros m' D'. rewrite (documented_fun _ _ _ D' Df). exists n. split; [exact Le|]. rewrite F. split; [exists g; auto|].
    intros V. destruct Cs as [(_ & W)|(l & Ol & T)]; [specialize (W V Ou); lia|]. exists l. split; [rewrite Ol; apply in_or_app; right; left; reflexivity|exact T].
  Qed.
  Lemma told_cut2 a b c d : told (a >> (b >> c)) -> told d -> told (a >> (b >> (c >> d))).
  Proof.
    intros X Y s s' E. destruct (seq_ok _ _ _ _ E) as (s1 & E1 & R). destruct (seq_ok _ _ _ _ R) as (s2 & E2 & R2). destruct (seq_ok _ _ _ _ R2) as (s3 & E3 & E4).
    refine (tells_tran _ _ _ (X s s3 _) (Y _ _ E4)). unfold Visitor.seq. rewrite E1, E2. exact E3.
  Qed.
  Lemma told_generic v ks : told (visit_fields ks) -> told (generic_visit e v ks).
  Proof.
    intros X. unfold generic_visit. apply told_seq; [destruct (pos_of v) as [[l c]|]; [apply told_upd; split; reflexivity|apply told_nop]|].
    apply told_seq; [apply told_upd; split; reflexivity|]. apply told_seq.
    - unfold when. destruct (c_print_visits cfg) eqn:P; [|apply told_nop]. destruct (c_quiet cfg); [apply told_nop|]. cbn.
      intros s s' E. injection E as <-. unfold tells. cbn. split; [apply incl_refl|]. split; [apply incl_appl, incl_refl|]. split; [|auto].
      intros x I. apply in_app_or in I as [I|[<-|[]]]; [left; exact I|]. right. left. exact P.
    - apply told_seq; [exact X|]. apply told_upd. split; reflexivity.
  Qed.
End Tells.

Ltac doc := solve [constructor | repeat constructor].
Ltac line := unfold vv, vv_pl, vvl, vvl_pl, vvv; first [apply told_flag | apply told_line_flag]; [doc|lia].
Ltac t1 :=
  lazymatch goal with
  | |- told _ nop => apply told_nop
  | |- told _ (fail _) => apply told_fail
  | |- told _ (set_flag FAnnotations >> (set_flag FVarAnnotations >> (_ >> _))) =>
      apply told_cut2; [unfold vvl; eapply told_two; [doc|doc| |lia]|]
  | |- told _ (set_flag ?f >> ?b) =>
      first [ apply told_seq; [apply told_unsaid; cbv; tauto|]
            | line
            | apply told_cut; [line|] ]
  | |- told _ (vv _ _ _ >> set_flag _) => line
  | |- told _ (_ >> _) => apply told_seq
  | |- told _ (set_flag _) => apply told_unsaid; cbv; tauto
  | |- told _ (when _ _) => apply told_when
  | |- told _ (rd _) => apply told_rd; intros ?s
  | |- told _ (scoped _) => apply told_scoped
  | |- told _ (with_res _ _) => apply told_with_res; intros ?r
  | |- told _ (unless_no_line _ _ _) => apply told_no_line
  | |- told _ (each _ _) => apply told_each; intros ?x ?I
  | |- told _ (vv_msg _ _) => apply told_note
  | |- told _ (vvl_msg _ _ _) => apply told_note
  | |- told _ (vvvv _ _) => apply told_note
  | |- told _ (upd _) => apply told_upd; intros ?s; solve [split; reflexivity]
  | |- told _ (if ?b then _ else _) => destruct b
  | |- told _ (match ?x with _ => _ end) => destruct x
  end.

Section Node.
  Variables (e : env) (k : kind) (u : N) (pos : option (Z * Z)) (fs : list (string * pyval)) (ks : list (string * ksem)).

  Hypothesis KF : told e (visit_fields ks).
  Hypothesis KD : told e (visit_fields (drop_returns ks)).
  Hypothesis KT : forall x, In x (k_list (kid "finalbody" ks)) -> told e (k_visit x).
  Hypothesis KG : forall x, In x (k_list (kid "body" ks)) -> told e (k_gvisit x).

  Lemma told_annotations l args : told e (arg_annotations e l args).
  Proof. induction args as [|a r IH]; cbn [arg_annotations]; repeat t1; try exact IH. Qed.

  Ltac leaf :=
    lazymatch goal with
    | |- told _ (generic_visit _ _ _) => apply told_generic; first [exact KF | exact KD]
    | |- told _ (arg_annotations _ _ _) => apply told_annotations
    | |- told _ (k_visit _) => apply KT; assumption
    | |- told _ (k_gvisit _) => apply KG; assumption
    end.
  Ltac unf :=
    unfold visit_import, visit_import_from, visit_name, gen_unpacking, check_gen_unp_seq, check_gen_unp_dict, visit_attribute,
      attr_resolve, attr_module, visit_binop, visit_constant, visit_ellipsis, visit_joinedstr, visit_keyword, visit_call,
      call_name, call_attribute, strftime_arg, add_strftime_directive, when_const, check_gen_unp_call, push_fn, pop_fn,
      add_bytes_directive, visit_assign, visit_augassign, visit_annassign, check_relaxed_decorators, check_user_func_decorators,
      visit_functiondef, visit_asyncfunctiondef, handle_functiondef, visit_await, visit_classdef, visit_namedexpr,
      visit_arguments, visit_nonlocal, visit_yieldfrom, visit_match, visit_typealias, visit_yield,
      visit_raise, visit_excepthandler, visit_setcomp, visit_dictcomp, comp_scope, visit_comprehension, visit_matmult,
      visit_continue, visit_with, visit_asyncwith, handle_with, visit_dict, visit_set, visit_seq, check_gen_unp_seq,
      check_gen_unp_dict, gen_unpacking, check_builtin_generic, visit_subscript, visit_cond, visit_asyncfor,
      handle_for, visit_while, visit_try, visit_starred, add_lc, add_arg_def, check_relaxed_decorators, check_user_func_decorators,
      check_builtin_generic.
  Ltac deep := repeat first [t1 | leaf | progress unfold add_module, add_member, add_kwargs, add_user_func_deco, add_typecodes, add_lc_val, check_codecs_function,
      add_name_res_type, add_user_def_node, add_target_defs, add_name_res_assign, add_names_as_members, generic_match, add_user_def, add_name_res, add_lc,
      add_codecs_error_handler, add_codecs_encoding, when_const, add_ceh, add_cenc, add_array_typecode, gen_unpacking].

  Lemma told_handler : told e (handler e k u pos fs ks).
  Proof.
    destruct k; cbn [handler]; try (apply told_generic, KF); try apply told_nop.
    all: unf; deep.
    split; [exact I|]. cbn. unfold ver_le. cbn. lia.
  Qed.
End Node.

(** ** Trees *)
Definition tolds (e : env) (k : ksem) : Prop :=
  told e (k_visit k) /\ told e (k_gvisit k) /\ told e (visit_field k) /\
  forall x, In x (k_list k) -> told e (k_visit x) /\ told e (k_gvisit x).
Lemma tolds_other e : tolds e KOther.
Proof. split; [apply told_nop|]. split; [apply told_nop|]. split; [apply told_nop|intros x []]. Qed.
Lemma tolds_kids e ks : (forall f k, In (f, k) ks -> tolds e k) ->
  told e (visit_fields ks) /\ told e (visit_fields (drop_returns ks)) /\ forall f, tolds e (kid f ks).
Proof.
  intros H. split; [|split].
  - apply told_each. intros [f k] I. exact (proj1 (proj2 (proj2 (H f k I)))).
  - apply told_each. intros [f k] I. unfold drop_returns in I. apply in_map_iff in I as ([f' k'] & E & I). cbn [fst snd] in E.
    destruct (f' =? "returns")%string; injection E as <- <-; [apply told_nop|]. exact (proj1 (proj2 (proj2 (H f' k' I)))).
  - intros f. unfold kid. destruct (assoc f ks) as [k|] eqn:A; [|apply tolds_other]. apply assoc_In in A. exact (H f k A).
Qed.
Lemma tolds_sem e v : tolds e (sem e v).
Proof.
  induction v as [ |b|z|s|s|s|s| |l IH|k u p fs IH] using pyval_rect'; try apply tolds_other.
  - rewrite Forall_forall in IH. cbn [sem].
    assert (L : forall x, In x (map (sem e) l) -> told e (k_visit x) /\ told e (k_gvisit x)).
    { intros x I. apply in_map_iff in I as (y & <- & I). destruct (IH y I) as (A & C & _). auto. }
    split; [apply told_nop|]. split; [apply told_nop|]. split; [|exact L].
    apply told_each. intros x I. apply L, I.
  - rewrite Forall_forall in IH. cbn [sem]. set (ks := map _ fs).
    destruct (tolds_kids e ks) as (A & C & D).
    { intros f k' I. apply in_map_iff in I as ([g y] & E & I). injection E as <- <-. exact (IH (g, y) I). }
    assert (S : told e (handler e k u p fs ks)).
    { apply told_handler; try assumption.
      - intros x I. apply (D "finalbody"), I.
      - intros x I. apply (D "body"), I. }
    split; [exact S|]. split; [apply told_generic, A|]. split; [exact S|intros x []].
Qed.
Lemma told_tour e v s : tour e v = Ok s -> tells e init_st s.
Proof.
  intros T. unfold tour in T. assert (H : told e (visit e v >> after_visit_all e)); [|exact (H _ _ T)].
  apply told_seq; [exact (proj1 (tolds_sem e v))|]. unfold after_visit_all, drop_user_def. repeat t1.
Qed.

(** ** The verdict *)
Section Verdict.
  Variable e : env.
  Notation cfg := (e_cfg e).

  (** Lines of rules: one for each rule of the library that counts. *)
  Lemma add_versions_out v i ent m s m' s' : add_versions e v (Some i) ent m s = Ok (m', s') ->
    s_flags s' = s_flags s /\ incl (s_out s) (s_out s') /\
    (forall l, In l (s_out s') -> In l (s_out s) \/ tells_of e (Some v) l) /\
    (ent <> None -> outspoken cfg -> violates e (Some v) = Ok true -> explained e (s_out s') v).
  Proof.
    intros H. unfold add_versions, bindr in H. destruct (violates e (Some v)) as [b|] eqn:V; [|discriminate].
    match type of H with match ?a with _ => _ end = _ => destruct a as [s1|] eqn:A; [|discriminate] end.
    destruct (combine2 _ _ _ _) as [r|]; [|discriminate]. injection H as _ <-. destruct b; cbn [when] in A.
    - destruct (seq_ok _ _ _ _ A) as (s2 & A1 & A2). injection A1 as <-. destruct ent as [x|].
      + destruct (print_cases _ _ _ _ _ _ _ _ _ A2) as (F & [(O & W)|(l & O & T)]); cbn [s_out s_flags u_info] in *.
        * rewrite F, O. split; [reflexivity|]. split; [apply incl_refl|]. split; [auto|]. intros _ Ou _. specialize (W V Ou). lia.
        * rewrite F, O. split; [reflexivity|]. split; [apply incl_appl, incl_refl|]. split.
          -- intros y I. apply in_app_or in I as [I|[<-|[]]]; auto.
          -- intros _ _ _. exists l. split; [apply in_or_app; right; left; reflexivity|exact T].
      + injection A2 as <-. cbn. split; [reflexivity|]. split; [apply incl_refl|]. split; [auto|]. congruence.
    - injection A as <-. split; [reflexivity|]. split; [apply incl_refl|]. split; [auto|]. intros _ _ X. discriminate.
  Qed.
  Lemma add_versions_none v ent m s m' s' : add_versions e v None ent m s = Ok (m', s') -> s' = s.
  Proof.
    intros H. unfold add_versions, bindr in H. destruct (violates e (Some v)) as [b|]; [|discriminate]. unfold nop in H.
    destruct (combine2 _ _ _ _) as [r|]; [|discriminate]. injection H as _ <-. reflexivity.
  Qed.
  Lemma run_steps_out : forall l m s m' s', run_steps e l m s = Ok (m', s') ->
    incl (s_out s) (s_out s') /\
    (forall y, In y (s_out s') -> In y (s_out s) \/ exists v, rule_in l v /\ tells_of e (Some v) y) /\
    (forall v i x, In (SRule v (Some i) (Some x)) l -> outspoken cfg -> violates e (Some v) = Ok true -> explained e (s_out s') v).
  Proof.
    induction l as [|[v i ent|x] l IH]; intros m s m' s' H; cbn [run_steps] in H; [| |discriminate].
    - injection H as _ <-. split; [apply incl_refl|]. split; [auto|intros v i x []].
    - unfold bindr in H. destruct (add_versions e v i ent m s) as [[m1 s1]|] eqn:A; [|discriminate]. cbn [fst snd] in H.
      destruct (IH _ _ _ _ H) as (P & Q & R).
      assert (K : forall y, In y (s_out s') -> In y (s_out s1) \/ exists w, rule_in (SRule v i ent :: l) w /\ tells_of e (Some w) y).
      { intros y I. destruct (Q y I) as [J|(w & (i' & t' & J) & T)]; [auto|]. right. exists w. split; [|exact T]. exists i', t'. right. exact J. }
      destruct i as [i|].
      + destruct (add_versions_out _ _ _ _ _ _ _ A) as (_ & O1 & O2 & O3). split; [eapply incl_tran; eassumption|]. split.
        * intros y I. destruct (K y I) as [J|J]; [|auto]. destruct (O2 y J) as [J'|J']; [auto|]. right. exists v. split; [|exact J'].
          exists (Some i), ent. left. reflexivity.
        * intros w i' x [E|I] Ou V; [|exact (R w i' x I Ou V)]. injection E as -> -> ->.
          apply (explained_mono e (s_out s1)); [exact P|]. apply O3; auto. discriminate.
      + apply add_versions_none in A as ->. split; [exact P|]. split; [exact K|].
        intros w i' x [E|I] Ou V; [discriminate|exact (R w i' x I Ou V)].
  Qed.

  (** A rule is that of a feature, or printed. *)
  Definition library (l : list step) : Prop := forall v i ent, In (SRule v i ent) l -> exists i' x, i = Some i' /\ ent = Some x.
  Lemma library_rules {A} (lk : A -> option mins) tx en l : library (rule_steps lk tx en l).
  Proof.
    intros v i ent I. apply in_flat_map in I as (a & _ & I). destruct (lk a); [|destruct I]. destruct I as [E|[]]. injection E as _ <- <-. eauto.
  Qed.
  Lemma library_enc l : library (flat_map encoding_steps l).
  Proof.
    intros v i ent I. apply in_flat_map in I as (n & _ & I). apply in_flat_map in I as (kv & _ & I).
    destruct n; try (destruct I as [E|[]]; discriminate).
    - destruct (enc_matches _ _); [|destruct I]. destruct I as [E|[]]. injection E as _ <- <-. eauto.
    - destruct (fst kv); [destruct I|destruct I as [E|[]]; discriminate].
  Qed.
  Lemma library_app a b : library a -> library b -> library (a ++ b).
  Proof. intros A B v i ent I. apply in_app_or in I as [I|I]; [exact (A _ _ _ I)|exact (B _ _ _ I)]. Qed.
  Lemma steps_sorts s v i ent : In (SRule v i ent) (steps e s) ->
    (exists f, In f (s_flags s) /\ f <> FPrintV2 /\ documented f v) \/ exists i' x, i = Some i' /\ ent = Some x.
  Proof.
    intros I. unfold steps in I. apply in_app_or in I as [I|I].
    - left. apply in_flat_map in I as ([[f w] j] & J & I). destruct (has_flag s f) eqn:F; [|destruct I]. destruct I as [E|[]].
      injection E as <- _ _. apply has_flag_In in F. exists f. split; [exact F|].
      assert (N : f <> FPrintV2). { intros ->. clear -J. revert J. cbn. intuition discriminate. }
      split; [exact N|]. apply (flag_table_documented f w N). exists j. exact J.
    - right. revert v i ent I. repeat apply library_app; try apply library_rules. apply library_enc.
  Qed.
  Lemma of_feature_triggered bps s r : of_feature (s_flags s) r -> triggered bps s r.
  Proof. intros (f & I & D). exact (trig_feature bps s f r I D). Qed.

  Variables (v : pyval) (s : st) (m : mins) (s' : st).
  Hypothesis T : tour e v = Ok s.
  Hypothesis M : minimum_versions e s = Ok (m, s').

  Lemma halves : exists s1, when (has_flag s FPrintV3) (verbose_print_v e 2 "print(expr)" None (Some (-1)) (Some (both 0 0)) None) s = Ok s1 /\
    run_steps e (steps e s) (if has_flag s FPrintV2 then (Some (2, 0), Some (0, 0)) else zero_mins) s1 = Ok (m, s').
  Proof.
    unfold minimum_versions, bindr in M. match type of M with match ?a with _ => _ end = _ => destruct a as [s1|] eqn:A; [|discriminate] end.
    exists s1. split; [exact A|exact M].
  Qed.
  Lemma told_all : outspoken cfg -> ~ In FLongV2 (s_flags s) -> forall r, triggered (bps_of e) s r ->
    exists r', mins_le r r' /\ triggered (bps_of e) s r' /\ (violates e (Some r') = Ok true -> explained e (s_out s') r').
  Proof.
    intros Ou NL r Tr. destruct (told_tour e v s T) as (_ & _ & _ & TF). destruct halves as (s1 & P & R).
    destruct (run_steps_out _ _ _ _ _ R) as (Inc & _ & Lib).
    assert (Inc1 : incl (s_out s) (s_out s1)).
    { destruct (has_flag s FPrintV3); [|injection P as <-; apply incl_refl].
      destruct (print_cases _ _ _ _ _ _ _ _ _ P) as (_ & [(O & _)|(l & O & _)]); rewrite O; [apply incl_refl|apply incl_appl, incl_refl]. }
    assert (Feat : forall f x, In f (s_flags s) -> documented f x ->
      exists r', mins_le x r' /\ triggered (bps_of e) s r' /\ (violates e (Some r') = Ok true -> explained e (s_out s') r')).
    { intros f x I D. destruct (TF Ou f I) as [[]|[U|B]].
      - assert (K : f = FPrintV3). { cbn in U. destruct U as [<-|[<-|[<-|[<-|[<-|[]]]]]]; [contradiction|reflexivity|inversion D..]. }
        subst f. assert (x = both 0 0) by (inversion D; reflexivity). subst x. exists (both 0 0). split; [apply mins_le_refl|].
        split; [exact (trig_feature _ _ _ _ I D)|]. intros Vi. apply has_flag_In in I. rewrite I in P.
        destruct (print_cases _ _ _ _ _ _ _ _ _ P) as (_ & [(O & W)|(l & O & W)]); [specialize (W Vi Ou); lia|].
        exists l. split; [|exact W]. apply Inc. rewrite O. apply in_or_app. right. left. reflexivity.
      - destruct (B x D) as (r' & L & F & X). exists r'. split; [exact L|]. split; [exact (of_feature_triggered _ _ _ F)|].
        intros Vi. exact (explained_mono e _ _ _ (incl_tran Inc1 Inc) (X Vi)). }
    assert (Tr' := Tr). apply triggered_start in Tr' as [[I E]|Tr'].
    - apply (Feat FPrintV2 r I). rewrite E. constructor.
    - apply (steps_rule e s r) in Tr' as (i & ent & I). destruct (steps_sorts s r i ent I) as [(f & J & _ & D)|(i' & x & -> & ->)].
      + exact (Feat f r J D).
      + exists r. split; [apply mins_le_refl|]. split; [exact Tr|]. exact (Lib r i' x I Ou).
  Qed.
  Lemma only_told : c_print_visits cfg = false -> forall l, In l (s_out s') ->
    tells_of e None l \/ exists r, triggered (bps_of e) s r /\ tells_of e (Some r) l.
  Proof.
    intros NV l I. destruct (told_tour e v s T) as (_ & _ & TS & _). destruct halves as (s1 & P & R).
    destruct (run_steps_out _ _ _ _ _ R) as (_ & Q & _). destruct (Q l I) as [J|(w & W & Tl)].
    - assert (K : In l (s_out s) \/ (In FPrintV3 (s_flags s) /\ tells_of e (Some (both 0 0)) l)).
      { destruct (has_flag s FPrintV3) eqn:F; [|injection P as <-; left; exact J]. apply has_flag_In in F.
        destruct (print_cases _ _ _ _ _ _ _ _ _ P) as (_ & [(O & _)|(y & O & W)]); rewrite O in J; [left; exact J|].
        apply in_app_or in J as [J|[<-|[]]]; auto. }
      destruct K as [K|[K K']].
      + destruct (TS l K) as [[]|[X|[X|(r & F & X)]]]; [congruence|left; exact X|]. right. exists r. split; [exact (of_feature_triggered _ _ _ F)|exact X].
      + right. exists (both 0 0). split; [|exact K']. apply trig_feature with FPrintV3; [exact K|constructor].
    - right. exists w. split; [|exact Tl]. apply triggered_start. right. apply steps_rule. exact W.
  Qed.

  (** *** Everything shown *)
  Lemma join_by (P Q : mins -> Prop) x : is_join_of P x -> (forall r, Q r -> P r) ->
    (forall r, P r -> exists r', mins_le r r' /\ Q r') -> is_join_of Q x.
  Proof.
    intros (Z & U & L) I B. split; [exact Z|]. split; [auto|]. intros u Zu Uu. apply L; [exact Zu|]. intros r R.
    destruct (B r R) as (r' & Le & R'). exact (mins_le_trans _ _ _ Le (Uu r' R')).
  Qed.
  Lemma explained_join : outspoken cfg -> ~ In FLongV2 (s_flags s) -> c_only_show_violations cfg = false ->
    is_join_of (fun r => triggered (bps_of e) s r /\ explained e (s_out s') r) m.
  Proof.
    intros Ou NL V. apply (join_by (triggered (bps_of e) s)).
    - exact (join_of e s m s' M).
    - tauto.
    - intros r R. destruct (told_all Ou NL r R) as (r' & L & R' & X). exists r'. split; [exact L|]. split; [exact R'|]. apply X, violates_off, V.
  Qed.

  (** *** Read off the lines *)
  Lemma writes_inj n o o' t : writes n o t -> writes n o' t -> o = o'.
  Proof.
    intros A B. apply (opt_ver_str_inj n). rewrite <- (writes_fun _ _ _ _ A (opt_ver_str_writes n o)). exact (writes_fun _ _ _ _ B (opt_ver_str_writes n o')).
  Qed.
  Lemma reads_told line r ro : no_char ":" (e_path e) -> no_char (ascii_of_nat 10) (e_path e) -> c_format cfg = FParsable ->
    tells_of e ro line -> read_off [line] r <-> ro = Some r.
  Proof.
    intros P N F (msg & l & c & pl & E). unfold format_output_line in E. rewrite F in E.
    destruct (parsable_read msg (e_path e) l c ro P N) as [_ R]. rewrite <- E in R. split.
    - intros (line' & p & l' & c' & v2 & v3 & f & [<-|[]] & X & W2 & W3). apply R in X as (_ & _ & _ & S & _). destruct ro as [[a b]|].
      + destruct S as [S2 S3]. destruct r as [a' b']. cbn [fst snd] in *. rewrite (writes_inj _ _ _ _ S2 W2), (writes_inj _ _ _ _ S3 W3). reflexivity.
      + destruct S as [-> ->]. inversion W2 as [ | |x y D1 D2 Q]. destruct (z_str x); discriminate.
    - intros ->. exists line, (e_path e), (opt_str "" l), (opt_str "" c), (opt_ver_str 2 (fst r)), (opt_ver_str 3 (snd r)), (escape_nl msg).
      split; [left; reflexivity|]. split; [|split; apply opt_ver_str_writes]. apply R. split; [reflexivity|].
      split; [apply opt_str_shows|]. split; [apply opt_str_shows|]. split; [split; apply opt_ver_str_writes|apply escape_escaped].
  Qed.
  Lemma read_off_in lines r : read_off lines r <-> exists line, In line lines /\ read_off [line] r.
  Proof.
    split.
    - intros (line & p & l & c & v2 & v3 & f & I & X). exists line. split; [exact I|]. exists line, p, l, c, v2, v3, f. split; [left; reflexivity|exact X].
    - intros (line & I & (line' & p & l & c & v2 & v3 & f & [<-|[]] & X)). exists line, p, l, c, v2, v3, f. split; [exact I|exact X].
  Qed.
  Lemma read_join : no_char ":" (e_path e) -> no_char (ascii_of_nat 10) (e_path e) -> c_format cfg = FParsable -> 3 <= c_verbose cfg ->
    c_print_visits cfg = false -> c_only_show_violations cfg = false -> ~ In FLongV2 (s_flags s) ->
    (forall r, read_off (output_lines e s') r -> triggered (bps_of e) s r) /\ is_join_of (read_off (output_lines e s')) m.
  Proof.
    intros P N F Vb NV V NL. destruct (output_lines_set e s' NV) as [_ O].
    assert (A : forall r, read_off (output_lines e s') r -> triggered (bps_of e) s r).
    { intros r R. apply read_off_in in R as (line & I & R). apply O in I. destruct (only_told NV line I) as [T0|(r0 & R0 & T0)].
      - apply (reads_told line r None P N F T0) in R. discriminate.
      - apply (reads_told line r _ P N F T0) in R. injection R as <-. exact R0. }
    split; [exact A|]. apply (join_by (triggered (bps_of e) s)); [exact (join_of e s m s' M)|exact A|].
    intros r R. destruct (told_all (conj (or_introl F) Vb) NL r R) as (r' & L & _ & X). exists r'. split; [exact L|].
    destruct (X (violates_off e _ V)) as (line & I & T0). apply read_off_in. exists line. split; [apply O, I|].
    apply (reads_told line r' _ P N F T0). reflexivity.
  Qed.

  (** *** Only violations shown *)
  Lemma above_mono (a b : mins) t : mins_le a b -> above a t -> above b t.
  Proof.
    intros [L2 L3] A. unfold above in *. destruct (fst t =? 2);
      [destruct (fst a), (fst b)|destruct (snd a), (snd b)]; cbn in *; try tauto; unfold ver_le, ver_lt in *; lia.
  Qed.
  Lemma violations_told : outspoken cfg -> c_only_show_violations cfg = true -> targets_in_scope (c_targets cfg) -> ~ In FLongV2 (s_flags s) ->
    forall x t, In (x, t) (c_targets cfg) ->
    (above m t <-> exists r, above r t /\ triggered (bps_of e) s r /\ explained e (s_out s') r).
  Proof.
    intros Ou OV TS NL x t I. destruct (join_of e s m s' M) as (_ & U & _). split.
    - intros A. assert (B : exists r, triggered (bps_of e) s r /\ above r t).
      { destruct (per_major e s m s' M) as (N2 & N3 & S2 & S3).
        assert (Hi : 2 <= fst t).
        { destruct TS as [(b & t1 & Q & [K|K])|(b & t1 & b' & t2 & Q & K & K')]; rewrite Q in I; cbn in I;
            [destruct I as [I|[]]; injection I as _ <-; lia..|destruct I as [I|[I|[]]]; injection I as _ <-; lia]. }
        unfold above in A |- *. destruct (fst t =? 2).
        - destruct (fst m) as [v0|] eqn:Fm.
          + destruct (S2 v0 eq_refl) as [[->|(r & R & E)] _]; [unfold ver_lt in A; cbn in A; lia|]. exists r. rewrite E. auto.
          + destruct (proj1 N2 eq_refl) as (r & R & E). exists r. rewrite E. auto.
        - destruct (snd m) as [v0|] eqn:Fm.
          + destruct (S3 v0 eq_refl) as [[->|(r & R & E)] _]; [unfold ver_lt in A; cbn in A; lia|]. exists r. rewrite E. auto.
          + destruct (proj1 N3 eq_refl) as (r & R & E). exists r. rewrite E. auto. }
      destruct B as (r & R & A'). destruct (told_all Ou NL r R) as (r' & L & R' & X). exists r'.
      assert (A2 := above_mono _ _ _ L A'). split; [exact A2|]. split; [exact R'|]. apply X.
      destruct (violates_iff e r' OV TS) as (b & V & B). rewrite V. f_equal. apply B. eauto.
    - intros (r & A & R & _). exact (above_mono _ _ _ (U r R) A).
  Qed.
End Verdict.
