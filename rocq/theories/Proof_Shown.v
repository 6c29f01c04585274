(** Analyses that look for the same and show it differently. Lemmas for C80. *)
From Verif Require Import PyBase PyLemmas Utility RulesData Rules Config Formats Paths AstKinds Ast State Visitor MinVersions
  Spec_Base Spec_Utility Spec_Detection Spec_Formats Spec_Visitor Spec_MinVersions Spec_Same Spec_Shown
  Proof_Utility Proof_Formats Proof_Tour Proof_MinVersions.

Definition said (c : config) (path : string) (x : item) : list string :=
  match x with
  | Tell f =>
      if skip_output_line c || (c_verbose c <? f_level f) then []
      else if 2 <? c_verbose c then [format_output_line c (f_text f) path (f_line f) (f_col f) (f_versions f) (f_plural f)]
      else [format_output_line c (f_text f) path (f_known f) None (f_versions f) (f_plural f)]
  | Node n t => if c_print_visits c && negb (c_quiet c) then [srepeat "| " (Z.to_nat n) +++ t] else []
  end.

Lemma said_renders c path l : renders c path l (flat_map (said c path) l).
Proof.
  induction l as [|x l IH]; [apply rn_nil|]. cbn [flat_map]. destruct x as [f|n t]; cbn [said].
  - destruct (skip_output_line c || (c_verbose c <? f_level f)) eqn:E.
    + apply rn_hidden; [|exact IH]. intros (Q & V). apply orb_prop in E as [E|E]; [|apply Z.ltb_lt in E; lia].
      unfold skip_output_line in E. destruct (c_format c); [|discriminate]. destruct Q as [Q|Q]; congruence.
    + apply orb_false_elim in E as (E1 & E2). apply Z.ltb_ge in E2.
      assert (Sh : is_shown c f) by (split; [unfold skip_output_line in E1; destruct (c_format c); auto|exact E2]).
      assert (L : exists x, line_of c path f x /\
        (if 2 <? c_verbose c then [format_output_line c (f_text f) path (f_line f) (f_col f) (f_versions f) (f_plural f)]
         else [format_output_line c (f_text f) path (f_known f) None (f_versions f) (f_plural f)]) = [x]).
      { unfold line_of, format_output_line. destruct (c_format c).
        - exists (default_line (c_verbose c) (f_text f) (f_line f) (f_col f) (f_versions f) (f_plural f)).
          split; [apply default_line_iff; reflexivity|]. destruct (2 <? c_verbose c) eqn:V; [reflexivity|].
          apply Z.ltb_ge in V. assert (B : (c_verbose c <? 3) = true) by (apply Z.ltb_lt; lia).
          unfold default_line. rewrite B. reflexivity.
        - assert (K : forall li co, (3 <= c_verbose c -> li = f_line f /\ co = f_col f) -> (c_verbose c < 3 -> li = f_known f /\ co = None) ->
            parses (c_verbose c) path f (parsable_line (f_text f) path li co (f_versions f))).
          { intros li co H3 H2. exists (opt_str "" li), (opt_str "" co).
            assert (A : (3 <= c_verbose c -> shows_num (f_line f) (opt_str "" li) /\ shows_num (f_col f) (opt_str "" co)) /\
                        (c_verbose c < 3 -> shows_num (f_known f) (opt_str "" li) /\ opt_str "" co = "")).
            { split; intros H; [destruct (H3 H) as (-> & ->); split; apply opt_str_shows|].
              destruct (H2 H) as (-> & ->). split; [apply opt_str_shows|reflexivity]. }
            destruct A as (A1 & A2). destruct (f_versions f) as [m|] eqn:M.
            - exists (opt_ver_str 2 (fst m)), (opt_ver_str 3 (snd m)), (escape_nl (f_text f)).
              pose proof (vers_of_shows (Some m)) as V. rewrite parsable_line_eq. split; [reflexivity|].
              split; [exact A1|]. split; [exact A2|]. split; [exact V|apply escape_escaped].
            - exists "", "", (escape_nl (f_text f)). split; [reflexivity|].
              split; [exact A1|]. split; [exact A2|]. split; [split; reflexivity|apply escape_escaped]. }
          destruct (2 <? c_verbose c) eqn:V; [apply Z.ltb_lt in V|apply Z.ltb_ge in V]; (eexists; split; [apply K|reflexivity]); intros; auto; lia. }
      destruct L as (x & L & ->). apply rn_shown; auto.
  - destruct (c_print_visits c) eqn:P, (c_quiet c) eqn:Q; cbn [andb negb app].
    + apply rn_no_node; auto.
    + apply rn_node; auto.
    + apply rn_no_node; auto.
    + apply rn_no_node; auto.
Qed.

Section Shown.
  Variables (c c' : config) (path : string) (src : option string) (nl : list Z)
    (sd : list (string * string) -> pyval -> res bool) (d : pyval -> string).
  Hypothesis Same : same_search c c'.
  Let e := mkEnv c path src nl sd d.
  Let e' := mkEnv c' path src nl sd d.

  (** States that differ in the lines only, which show the same items. *)
  Definition like (s s' : st) : Prop :=
    exists l, s_out s = flat_map (said c path) l /\ s' = u_out (flat_map (said c' path) l) s.
  Definition simr (r r' : res st) : Prop :=
    match r, r' with Ok s, Ok s' => like s s' | Err x, Err x' => x = x' | _, _ => False end.
  Definition sim (a a' : act) : Prop := forall s s', like s s' -> simr (a s) (a' s').

  Lemma sim_nop : sim nop nop.
  Proof. intros s s' L. exact L. Qed.
  Lemma sim_seq a a' b b' : sim a a' -> sim b b' -> sim (a >> b) (a' >> b').
  Proof.
    intros A B s s' L. specialize (A _ _ L). unfold seq. destruct (a s), (a' s'); cbn in A; try contradiction.
    - apply B, A.
    - exact A.
  Qed.
  Lemma sim_when b b' a a' : b = b' -> (b = true -> sim a a') -> sim (when b a) (when b' a').
  Proof. intros <-. destruct b; [auto|]. intros _. apply sim_nop. Qed.
  Lemma sim_rd f f' : (forall s o, f' (u_out o s) = f' s) -> (forall s, sim (f s) (f' s)) -> sim (rd f) (rd f').
  Proof. intros E F s s' L. unfold rd. pose proof L as (l & O & ->). rewrite E. apply F, L. Qed.
  Lemma sim_upd_eq f f' : (forall s, s_out (f s) = s_out s) -> (forall s o, f' (u_out o s) = u_out o (f s)) -> sim (upd f) (upd f').
  Proof. intros O F s s' (l & L & ->). exists l. split; [rewrite O; exact L|apply F]. Qed.
  Lemma sim_with_res {A} (m m' : res A) f f' : m = m' -> (forall a, m = Ok a -> sim (f a) (f' a)) -> sim (with_res m f) (with_res m' f').
  Proof. intros <- F. destruct m; [apply F; reflexivity|]. intros s s' L. reflexivity. Qed.
  Lemma sim_each {A} (f f' : A -> act) l : (forall x, In x l -> sim (f x) (f' x)) -> sim (each f l) (each f' l).
  Proof.
    intros F. induction l; [apply sim_nop|]. cbn [each]. apply sim_seq; [apply F; left; reflexivity|].
    apply IHl. intros x I. apply F. right. exact I.
  Qed.
  Lemma sim_scoped a a' : sim a a' -> sim (scoped a) (scoped a').
  Proof.
    intros A s s' L. specialize (A _ _ L). unfold scoped. destruct (a s), (a' s'); cbn in A; try contradiction; [|exact A].
    destruct A as (o & l & ->), L as (o' & l' & ->). exists o. split; [exact l|reflexivity].
  Qed.
  Lemma sim_flag f : sim (set_flag f) (set_flag f).
  Proof. apply sim_upd_eq; intros s; [|intros o]; cbn [s_flags u_out]; destruct (existsb _ _); reflexivity. Qed.
  Lemma sim_lc x l k : sim (add_lc x l k) (add_lc x l k).
  Proof. apply sim_upd_eq; reflexivity. Qed.
  Lemma sim_lc_val x l : sim (add_lc_val x l) (add_lc_val x l).
  Proof. unfold add_lc_val. destruct x; first [apply sim_nop | apply sim_lc]. Qed.

  Lemma ex_mem x : mem x (c_exclusions_set c') = mem x (c_exclusions_set c).
  Proof.
    destruct Same as (A & _). destruct (mem x (c_exclusions_set c)) eqn:M.
    - apply mem_In, A, mem_In, M.
    - apply Bool.not_true_iff_false in M. apply Bool.not_true_iff_false. intros N. apply M, mem_In, A, mem_In, N.
  Qed.
  Lemma ex1 x : is_excluded (e_cfg e') x = is_excluded (e_cfg e) x.
  Proof. apply ex_mem. Qed.
  Lemma ex2 f k : is_excluded_kwarg (e_cfg e') f k = is_excluded_kwarg (e_cfg e) f k.
  Proof. apply ex_mem. Qed.
  Lemma ex3 x : is_excluded_ceh (e_cfg e') x = is_excluded_ceh (e_cfg e) x.
  Proof. apply ex_mem. Qed.
  Lemma ex4 x : is_excluded_ce (e_cfg e') x = is_excluded_ce (e_cfg e) x.
  Proof. apply ex_mem. Qed.
  Lemma ft x : has_feature (e_cfg e') x = has_feature (e_cfg e) x.
  Proof.
    destruct Same as (_ & A & _). unfold has_feature. cbn. destruct (mem x (c_features c)) eqn:M.
    - apply mem_In, A, mem_In, M.
    - apply Bool.not_true_iff_false in M. apply Bool.not_true_iff_false. intros N. apply M, mem_In, A, mem_In, N.
  Qed.
  Lemma ev : c_eval_annotations (e_cfg e') = c_eval_annotations (e_cfg e).
  Proof. destruct Same as (_ & _ & _ & A & _). symmetry. exact A. Qed.
  Lemma kwa s f k : kw_accepted e' s f k = kw_accepted e s f k.
  Proof. unfold kw_accepted. rewrite ex2. reflexivity. Qed.

  Lemma violates_same m : violates e' m = violates e m.
  Proof.
    unfold violates, aligned_targets. destruct m; [|reflexivity]. cbn [e_cfg e e']. destruct Same as (_ & _ & _ & _ & V & T).
    change (e_cfg e') with c'. change (e_cfg e) with c. rewrite <- V.
    destruct (c_only_show_violations c); [|reflexivity]. cbn [negb]. rewrite (T eq_refl). reflexivity.
  Qed.

  (** What a print has to tell. *)
  Definition place (s : st) (en : option entity) (li : option Z) : option Z * option Z :=
    let lc := match en with Some x => lookup_lc x s | None => None end in
    let '(line, col) := match lc with Some (l, k) => (Some l, k) | None => (li, None) end in
    (match line with Some l => if l =? -1 then None else Some l | None => Some (s_line s) end, col).
  Definition told (s : st) lv m en li ve pl : item :=
    Tell (mkFinding lv m (fst (place s en li)) (snd (place s en li)) (match li with Some l => if l =? -1 then None else Some l | None => None end) ve pl).

  Lemma print_told (g : env) lv m en li ve pl s : e_path g = path ->
    verbose_print_v g lv m en li ve pl s =
    match violates g ve with
    | Err x => Err x
    | Ok false => Ok s
    | Ok true => Ok (u_out (s_out s ++ said (e_cfg g) path (told s lv m en li ve pl)) s)
    end.
  Proof.
    intros P. unfold verbose_print_v. destruct (violates g ve) as [[|]|]; try reflexivity.
    cbn [said told f_level]. destruct (_ || _) eqn:Q.
    - rewrite app_nil_r. destruct s; reflexivity.
    - cbn [f_text f_line f_col f_known f_versions f_plural].
      destruct (2 <? c_verbose (e_cfg g)) eqn:V.
      + unfold place. destruct (match en with Some x => lookup_lc x s | None => None end) as [[l k]|]; cbn [fst snd]; rewrite P; reflexivity.
      + replace (match en with Some _ => None | None => None end) with (@None (Z * option Z)) by (destruct en; reflexivity).
        rewrite P. reflexivity.
  Qed.

  Lemma like_more s s' x : like s s' -> like (u_out (s_out s ++ said c path x) s) (u_out (s_out s' ++ said c' path x) s').
  Proof.
    intros (l & O & ->). exists (l ++ [x]). split.
    - cbn. rewrite O, flat_map_app. cbn. rewrite app_nil_r. reflexivity.
    - cbn. rewrite flat_map_app. cbn. rewrite app_nil_r. reflexivity.
  Qed.
  Lemma told_same s s' lv m en li ve pl : like s s' -> told s' lv m en li ve pl = told s lv m en li ve pl.
  Proof. intros (l & O & ->). reflexivity. Qed.

  Lemma sim_print lv m en li ve pl : sim (verbose_print_v e lv m en li ve pl) (verbose_print_v e' lv m en li ve pl).
  Proof.
    intros s s' L. rewrite !print_told by reflexivity. rewrite violates_same, (told_same s s' _ _ _ _ _ _ L).
    destruct (violates e ve) as [[|]|]; cbn [simr]; [apply like_more, L|exact L|reflexivity].
  Qed.
  Lemma sim_no_line l a a' : (~ In l nl -> sim a a') -> sim (unless_no_line e l a) (unless_no_line e' l a').
  Proof.
    unfold unless_no_line. change (is_no_line e' l) with (is_no_line e l). destruct (is_no_line e l) eqn:N; [intros _; apply sim_nop|].
    intros A. apply A. intros I. unfold is_no_line in N. apply Bool.not_true_iff_false in N. apply N. apply existsb_exists.
    exists l. split; [exact I|apply Z.eqb_refl].
  Qed.

  Ltac cfgs := rewrite ?ex1, ?ex2, ?ex3, ?ex4, ?ft, ?ev, ?kwa.
  Ltac s1 :=
    lazymatch goal with
    | |- sim nop nop => apply sim_nop
    | |- sim (_ >> _) (_ >> _) => apply sim_seq
    | |- sim (when _ _) (when _ _) => apply sim_when; [cfgs; reflexivity|intros ?C]
    | |- sim (rd _) (rd _) => apply sim_rd; [intros; reflexivity|intros ?s]
    | |- sim (scoped _) (scoped _) => apply sim_scoped
    | |- sim (with_res _ _) (with_res _ _) => apply sim_with_res; [reflexivity|intros ?r ?Er]
    | |- sim (unless_no_line _ _ _) (unless_no_line _ _ _) => apply sim_no_line; intros ?NL
    | |- sim (each _ _) (each _ _) => apply sim_each; intros ?x ?I
    | |- sim (set_flag _) (set_flag _) => apply sim_flag
    | |- sim (add_lc _ _ _) (add_lc _ _ _) => apply sim_lc
    | |- sim (add_lc_val _ _) (add_lc_val _ _) => apply sim_lc_val
    | |- sim (verbose_print_v _ _ _ _ _ _ _) _ => apply sim_print
    | |- sim (vv _ _ _) _ => apply sim_print
    | |- sim (vv_pl _ _ _ _) _ => apply sim_print
    | |- sim (vvl _ _ _ _) _ => apply sim_print
    | |- sim (vvl_pl _ _ _ _) _ => apply sim_print
    | |- sim (vv_msg _ _) _ => apply sim_print
    | |- sim (vvl_msg _ _ _) _ => apply sim_print
    | |- sim (vvv _ _ _) _ => apply sim_print
    | |- sim (vvvv _ _) _ => apply sim_print
    | |- sim (upd _) (upd _) => apply sim_upd_eq; intros; try (reflexivity)
    | |- sim (if ?b then _ else _) (if _ then _ else _) => cfgs; destruct b eqn:?
    | |- sim (match ?x with _ => _ end) (match ?x with _ => _ end) => destruct x eqn:?
    end.
  Ltac ss := repeat s1.

  Lemma sim_add_module m l k : sim (add_module e m l k) (add_module e' m l k).
  Proof. unfold add_module. ss. Qed.
  Lemma sim_add_member m l k : sim (add_member e m l k) (add_member e' m l k).
  Proof. unfold add_member. ss. Qed.
  Lemma sim_add_kwargs f k l : sim (add_kwargs e f k l) (add_kwargs e' f k l).
  Proof. unfold add_kwargs. ss. Qed.
  Lemma sim_deco x l : sim (add_user_func_deco e x l) (add_user_func_deco e' x l).
  Proof. unfold add_user_func_deco. ss. Qed.
  Lemma sim_codecs f a w l : sim (check_codecs_function e f a w l) (check_codecs_function e' f a w l).
  Proof.
    unfold check_codecs_function, add_codecs_error_handler, add_codecs_encoding, when_const, add_ceh, add_cenc. ss.
  Qed.
  Lemma sim_typecodes a l k : sim (add_typecodes a l k) (add_typecodes a l k).
  Proof. unfold add_typecodes, add_array_typecode. ss. Qed.
  Lemma sim_user_def_node w : sim (add_user_def_node w) (add_user_def_node w).
  Proof. unfold add_user_def_node, add_user_def. ss. Qed.
  Lemma sim_target_defs w : sim (add_target_defs w) (add_target_defs w).
  Proof. unfold add_target_defs. ss. apply sim_user_def_node. Qed.
  Lemma sim_assign t w : sim (add_name_res_assign t w) (add_name_res_assign t w).
  Proof. unfold add_name_res_assign, add_name_res, add_name_res_type. ss. Qed.

  Lemma sim_dump v :
    sim (when (c_print_visits c && negb (c_quiet c)) (upd (fun s => u_out (s_out s ++ [srepeat "| " (Z.to_nat (s_depth s)) +++ d v]) s)))
        (when (c_print_visits c' && negb (c_quiet c')) (upd (fun s => u_out (s_out s ++ [srepeat "| " (Z.to_nat (s_depth s)) +++ d v]) s))).
  Proof.
    assert (W : forall k s, when (c_print_visits k && negb (c_quiet k)) (upd (fun s => u_out (s_out s ++ [srepeat "| " (Z.to_nat (s_depth s)) +++ d v]) s)) s =
      Ok (u_out (s_out s ++ said k path (Node (s_depth s) (d v))) s)).
    { intros k s. cbn [said]. destruct (_ && _); [reflexivity|]. rewrite app_nil_r. destruct s; reflexivity. }
    intros s s' L. rewrite !W. cbn [simr]. replace (s_depth s') with (s_depth s) by (destruct L as (l & O & ->); reflexivity).
    apply like_more, L.
  Qed.
  Lemma sim_generic w ks ks' : sim (visit_fields ks) (visit_fields ks') -> sim (generic_visit e w ks) (generic_visit e' w ks').
  Proof.
    intros F. unfold generic_visit. apply sim_seq; [destruct (pos_of w) as [[? ?]|]; s1|]. apply sim_seq; [s1|].
    apply sim_seq; [apply sim_dump|]. apply sim_seq; [exact F|s1].
  Qed.

  Section Node.
    Variables (k : kind) (u : N) (pos : option (Z * Z)) (fs : list (string * pyval)) (ks ks' : list (string * ksem)).
    Hypothesis HF : sim (visit_fields ks) (visit_fields ks').
    Hypothesis HD : sim (visit_fields (drop_returns ks)) (visit_fields (drop_returns ks')).
    Hypothesis HT : sim (each k_visit (k_list (kid "finalbody" ks))) (each k_visit (k_list (kid "finalbody" ks'))).
    Hypothesis HG : sim (each k_gvisit (k_list (kid "body" ks))) (each k_gvisit (k_list (kid "body" ks'))).

    Lemma sim_generic_here w : sim (generic_visit e w ks) (generic_visit e' w ks').
    Proof. apply sim_generic, HF. Qed.
    Lemma sim_generic_drop w : sim (generic_visit e w (drop_returns ks)) (generic_visit e' w (drop_returns ks')).
    Proof. apply sim_generic, HD. Qed.

    Lemma sim_annotations line l : sim (arg_annotations e line l) (arg_annotations e' line l).
    Proof. induction l as [|a l IH]; cbn [arg_annotations]; ss; exact IH. Qed.

    Lemma sim_call w : sim (visit_call e w pos fs ks) (visit_call e' w pos fs ks').
    Proof.
      unfold visit_call, call_name, call_attribute, check_gen_unp_call, gen_unpacking, push_fn, pop_fn, strftime_arg,
        add_strftime_directive, when_const. ss; try apply sim_generic_here; try apply sim_codecs; try apply sim_typecodes; try apply sim_add_member.
      all: intros ? ? ?; reflexivity.
    Qed.

    Lemma sim_keyword w : sim (visit_keyword e w fs ks) (visit_keyword e' w fs ks').
    Proof.
      intros s s' L. unfold visit_keyword, rd.
      assert (Q : forall f, sim (each (fun func => add_kwargs e (kw_function s func) (as_ostr (fld "arg" fs)) (s_line s)) f)
                                (each (fun func => add_kwargs e' (kw_function s' func) (as_ostr (fld "arg" fs)) (s_line s')) f)).
      { intros f. apply sim_each. intros x _. destruct L as (l & O & ->). apply sim_add_kwargs. }
      assert (Fn : s_fns s' = s_fns s) by (destruct L as (l & O & ->); reflexivity). rewrite Fn.
      refine (sim_seq _ _ _ _ (Q _) _ s s' L). apply sim_when; [|intros _; apply sim_generic_here].
      clear Fn. induction (s_fns s) as [|f r IH]; [reflexivity|]. cbn [existsb]. rewrite kwa, IH. destruct L as (l & O & ->). reflexivity.
    Qed.

    Ltac leaf :=
      first
      [ apply sim_generic_here | apply sim_generic_drop | apply sim_add_module | apply sim_add_member | apply sim_codecs | apply sim_typecodes
      | apply sim_target_defs | apply sim_user_def_node | apply sim_assign | apply sim_deco | apply sim_annotations
      | apply sim_keyword | apply sim_call | exact HT | exact HG ].
    Ltac unf :=
      unfold visit_import, visit_import_from, visit_name, gen_unpacking, check_gen_unp_seq, check_gen_unp_dict, visit_attribute,
        attr_resolve, attr_module, visit_binop, visit_constant, visit_ellipsis, visit_joinedstr,
        add_bytes_directive, visit_assign, visit_augassign, visit_annassign, check_relaxed_decorators, check_user_func_decorators,
        visit_functiondef, visit_asyncfunctiondef, handle_functiondef, visit_await, visit_classdef, visit_namedexpr, add_arg_def,
        visit_arguments, visit_nonlocal, visit_yieldfrom, visit_match, visit_typealias, visit_yield, add_names_as_members,
        visit_raise, visit_excepthandler, visit_setcomp, visit_dictcomp, comp_scope, visit_comprehension, visit_matmult,
        visit_continue, visit_with, visit_asyncwith, handle_with, visit_dict, visit_set, visit_seq, check_gen_unp_seq,
        check_gen_unp_dict, gen_unpacking, check_builtin_generic, generic_match, visit_subscript, visit_cond, visit_asyncfor,
        handle_for, visit_while, visit_try, visit_starred, add_user_def, add_name_res, add_name_res_type, union_types_enabled,
        fstring_self_doc_enabled, check_relaxed_decorators, add_names_as_members, check_builtin_generic, generic_match, add_arg_def.

    Lemma sim_handler : sim (handler e k u pos fs ks) (handler e' k u pos fs ks').
    Proof.
      destruct k; cbn [handler]; try apply sim_nop; try apply sim_generic_here; try leaf.
      all: unf; ss; try leaf.
      all: try match goal with |- context [first_deco_line e' ?x] => change (first_deco_line e' x) with (first_deco_line e x);
        unf; ss; try leaf end.
    Qed.
  End Node.


  Definition alike (v : pyval) : Prop :=
    sim (k_visit (sem e v)) (k_visit (sem e' v)) /\ sim (k_gvisit (sem e v)) (k_gvisit (sem e' v)) /\
    sim (visit_field (sem e v)) (visit_field (sem e' v)) /\
    sim (each k_visit (k_list (sem e v))) (each k_visit (k_list (sem e' v))) /\
    sim (each k_gvisit (k_list (sem e v))) (each k_gvisit (k_list (sem e' v))).
  Definition kids (g : env) (fs : list (string * pyval)) : list (string * ksem) := map (fun fx => (fst fx, sem g (snd fx))) fs.

  Lemma alike_all v : alike v.
  Proof.
    induction v as [ |b|z|s|s|s|s| |l IH|k u p fs IH] using pyval_rect';
      try (split; [apply sim_nop|split; [apply sim_nop|split; [apply sim_nop|split; apply sim_nop]]]; fail).
    - assert (L : sim (each k_visit (map (sem e) l)) (each k_visit (map (sem e') l)) /\
                  sim (each k_gvisit (map (sem e) l)) (each k_gvisit (map (sem e') l))).
      { induction IH as [|x r X _ [IH1 IH2]]; [split; apply sim_nop|]. destruct X as (X1 & X2 & _).
        split; [exact (sim_seq _ _ _ _ X1 IH1)|exact (sim_seq _ _ _ _ X2 IH2)]. }
      destruct L as [L1 L2]. split; [apply sim_nop|]. split; [apply sim_nop|]. split; [exact L1|]. split; [exact L1|exact L2].
    - assert (F : sim (visit_fields (kids e fs)) (visit_fields (kids e' fs)) /\
        sim (visit_fields (drop_returns (kids e fs))) (visit_fields (drop_returns (kids e' fs))) /\
        (forall f, sim (each k_visit (k_list (kid f (kids e fs)))) (each k_visit (k_list (kid f (kids e' fs))))) /\
        (forall f, sim (each k_gvisit (k_list (kid f (kids e fs)))) (each k_gvisit (k_list (kid f (kids e' fs)))))).
      { induction fs as [|[f x] r IHr].
        - split; [apply sim_nop|]. split; [apply sim_nop|]. split; intros; apply sim_nop.
        - inversion IH as [|? ? X Y]; subst. destruct X as (X1 & X2 & X3 & X4 & X5). destruct (IHr Y) as (A1 & A2 & A3 & A4).
          split; [exact (sim_seq _ _ _ _ X3 A1)|]. split; [|split].
          + unfold drop_returns, visit_fields in *. cbn [kids map fst snd each]. destruct (String.eqb f "returns").
            * exact (sim_seq _ _ _ _ sim_nop A2).
            * exact (sim_seq _ _ _ _ X3 A2).
          + intros g. unfold kid. cbn [kids map fst snd assoc]. destruct (String.eqb g f); [exact X4|exact (A3 g)].
          + intros g. unfold kid. cbn [kids map fst snd assoc]. destruct (String.eqb g f); [exact X5|exact (A4 g)]. }
      destruct F as (A1 & A2 & A3 & A4).
      assert (S : sim (k_visit (sem e (VNode k u p fs))) (k_visit (sem e' (VNode k u p fs)))).
      { cbn [sem k_visit]. apply sim_handler; [exact A1|exact A2|exact (A3 "finalbody")|exact (A4 "body")]. }
      split; [exact S|]. split; [cbn [sem k_gvisit]; apply sim_generic, A1|]. split; [exact S|]. split; exact sim_nop.
  Qed.

  Lemma tour_shown v : simr (tour e v) (tour e' v).
  Proof.
    destruct (alike_all v) as (A & _). unfold tour.
    assert (S : sim (visit e v >> after_visit_all e) (visit e' v >> after_visit_all e')).
    { apply sim_seq; [exact A|]. unfold after_visit_all, drop_user_def. ss. }
    apply S. exists []. split; reflexivity.
  Qed.

  (** The versions: the same unless an incompatibility ends one of the two. *)
  Lemma add_versions_shown v i ent m s s' : like s s' ->
    match add_versions e v i ent m s, add_versions e' v i ent m s' with
    | Ok (m1, s1), Ok (m2, s2) => m1 = m2 /\ like s1 s2
    | Ok _, Err x => exists t, x = InvalidVersion t
    | Err x, Ok _ => exists t, x = InvalidVersion t
    | Err x, Err y => x = y
    end.
  Proof.
    intros L. unfold add_versions. rewrite violates_same. destruct (violates e (Some v)) as [b|x]; cbn [bindr]; [|reflexivity].
    set (g := fun q => match i with
      | Some i0 => when b (upd (fun s0 => u_info (add_info v i0 (s_info s0)) s0) >>
          match ent with Some _ => verbose_print_v q 2 i0 ent None (Some v) None | None => nop end)
      | None => nop end).
    assert (S : sim (g e) (g e')).
    { unfold g. destruct i as [i|]; [|apply sim_nop]. apply sim_when; [reflexivity|]. intros _. apply sim_seq.
      - apply sim_upd_eq; reflexivity.
      - destruct ent; [apply sim_print|apply sim_nop]. }
    specialize (S s s' L). change (simr (g e s) (g e' s')) in S.
    fold (g e). fold (g e'). destruct (g e s) as [t|x], (g e' s') as [t'|x']; cbn [simr] in S; try contradiction; cbn [bindr]; [|exact S].
    replace (s_info t') with (s_info t) by (destruct S as (l & O & ->); reflexivity).
    change (e_cfg e) with c. change (e_cfg e') with c'. unfold combine2.
    destruct (c_ignore_incomp c), (c_ignore_incomp c'), (clash m v); cbn [negb andb bindr]; eauto.
  Qed.

  Lemma run_shown l : forall m s s', like s s' ->
    match run_steps e l m s, run_steps e' l m s' with
    | Ok (m1, s1), Ok (m2, s2) => m1 = m2 /\ like s1 s2
    | Ok _, Err x => exists t, x = InvalidVersion t
    | Err x, Ok _ => exists t, x = InvalidVersion t
    | Err x, Err y => x = y \/ (exists t, x = InvalidVersion t) \/ exists t, y = InvalidVersion t
    end.
  Proof.
    induction l as [|[v i ent|x] r IH]; intros m s s' L; cbn [run_steps].
    - split; [reflexivity|exact L].
    - pose proof (add_versions_shown v i ent m s s' L) as A.
      destruct (add_versions e v i ent m s) as [[m1 s1]|x1], (add_versions e' v i ent m s') as [[m2 s2]|x2]; cbn [bindr fst snd].
      + destruct A as (<- & A). apply IH, A.
      + destruct (run_steps e r m1 s1) as [[? ?]|]; auto.
      + destruct (run_steps e' r m2 s2) as [[? ?]|]; auto.
      + auto.
    - auto.
  Qed.

  Lemma versions_shown s s' m t m' t' : like s s' -> minimum_versions e s = Ok (m, t) -> minimum_versions e' s' = Ok (m', t') ->
    m = m' /\ like t t'.
  Proof.
    intros L. unfold minimum_versions.
    assert (F : forall f, has_flag s' f = has_flag s f) by (intros f; destruct L as (l & O & ->); reflexivity).
    assert (St : steps e' s' = steps e s).
    { destruct L as (l & O & ->). unfold steps, bps_of. change (e_cfg e) with c. change (e_cfg e') with c'.
      destruct Same as (_ & _ & <- & _). reflexivity. }
    rewrite !F, St.
    assert (P : sim (when (has_flag s FPrintV3) (verbose_print_v e 2 "print(expr)" None (Some (-1)) (Some (Some (2, 0), Some (3, 0))) None))
                    (when (has_flag s FPrintV3) (verbose_print_v e' 2 "print(expr)" None (Some (-1)) (Some (Some (2, 0), Some (3, 0))) None))).
    { apply sim_when; [reflexivity|]. intros _. apply sim_print. }
    specialize (P s s' L).
    destruct (when (has_flag s FPrintV3) _ s) as [s1|], (when (has_flag s FPrintV3) _ s') as [s2|]; cbn [simr] in P; try contradiction; cbn [bindr]; try discriminate.
    intros A B. match type of A with run_steps _ ?L ?M _ = _ => pose proof (run_shown L M s1 s2 P) as R end.
    rewrite A, B in R. exact R.
  Qed.

  Lemma shown_same v s s' m t m' t' : tour e v = Ok s -> tour e' v = Ok s' ->
    minimum_versions e s = Ok (m, t) -> minimum_versions e' s' = Ok (m', t') ->
    m = m' /\ exists l, renders c path l (s_out t) /\ renders c' path l (s_out t').
  Proof.
    intros T T' M M'. pose proof (tour_shown v) as L. rewrite T, T' in L. cbn [simr] in L.
    destruct (versions_shown s s' m t m' t' L M M') as (E & l & O & ->). split; [exact E|]. exists l. rewrite O.
    split; apply said_renders.
  Qed.
End Shown.

(** ** What renderings have in common *)
Lemma reads_fun v f a b : reads v f a -> reads v f b -> a = b.
Proof. intros A B. apply default_line_iff in A. apply default_line_iff in B. congruence. Qed.
Lemma parses_fun v path f a b : parses v path f a -> parses v path f b -> a = b.
Proof.
  intros (l & k & v2 & v3 & t & -> & H & L & V & T) (l' & k' & v2' & v3' & t' & -> & H' & L' & V' & T').
  rewrite (escaped_fun _ _ _ T T'). assert (E : l = l' /\ k = k').
  { destruct (Z_lt_le_dec v 3) as [W|W].
    - destruct (L W) as (A & ->), (L' W) as (B & ->). split; [exact (shows_num_fun _ _ _ A B)|reflexivity].
    - destruct (H W) as (A & A'), (H' W) as (B & B'). split; [exact (shows_num_fun _ _ _ A B)|exact (shows_num_fun _ _ _ A' B')]. }
  destruct E as (-> & ->).
  destruct (shows_versions_fun _ _ _ _ _ V V') as [-> ->]. reflexivity.
Qed.
Lemma line_of_fun c path f a b : line_of c path f a -> line_of c path f b -> a = b.
Proof. unfold line_of. destruct (c_format c); [apply reads_fun|apply parses_fun]. Qed.

Lemma renders_in c path l ls : c_print_visits c = false -> renders c path l ls ->
  forall x, In x ls <-> exists f, In (Tell f) l /\ is_shown c f /\ line_of c path f x.
Proof.
  intros P R. induction R as [|f l line ls S L R IH|f l ls S R IH|n t l ls V Q R IH|n t l ls V R IH]; intros x.
  - split; [intros []|intros (f & [] & _)].
  - cbn [In]. rewrite IH. split.
    + intros [<-|(g & I & G)]; [exists f; auto|exists g; auto].
    + intros (g & [E|I] & G & X); [|right; exists g; auto]. injection E as <-. left. exact (line_of_fun _ _ _ _ _ L X).
  - rewrite IH. split; intros (g & I & G); exists g; [split; [right; exact I|exact G]|].
    destruct I as [E|I]; [|auto]. injection E as <-. destruct G as (G & _). contradiction.
  - congruence.
  - rewrite IH. split; intros (g & I & G); exists g; [split; [right; exact I|exact G]|].
    destruct I as [E|I]; [discriminate|auto].
Qed.

(** Both show the same: line by line. *)
Lemma renders_both c c' path l ls ls' : c_print_visits c = false -> c_print_visits c' = false ->
  (forall f, is_shown c f <-> is_shown c' f) -> renders c path l ls -> renders c' path l ls' ->
  exists fs, Forall2 (line_of c path) fs ls /\ Forall2 (line_of c' path) fs ls'.
Proof.
  intros P P' S R. revert ls'. induction R as [|f l line ls Sf L R IH|f l ls Sf R IH|n t l ls V Q R IH|n t l ls V R IH]; intros ls' R'.
  - inversion R'; subst. exists []. split; constructor.
  - inversion R'; subst; [|match goal with N : ~ is_shown c' f |- _ => destruct N; apply S, Sf end].
    destruct (IH _ ltac:(eassumption)) as (fs & A & B). exists (f :: fs). split; constructor; assumption.
  - inversion R'; subst; [match goal with N : is_shown c' f |- _ => destruct Sf; apply S, N end|]. apply IH. assumption.
  - congruence.
  - inversion R'; subst; [congruence|]. apply IH. assumption.
Qed.
