(** Settings for constructs that a source does not have. Lemmas for C88. *)
From Verif Require Import PyBase PyLemmas Utility RulesData Rules Config Formats Paths AstKinds Ast State Visitor MinVersions
  Parser Processor Main Spec_Base Spec_Visitor Spec_Constructs Proof_Shapes.

(** *** Names of attributes end in the attribute *)
Lemma gan_step_more man acc n acc' : fst acc <> [] -> gan_step man acc n = Ok acc' -> exists more, fst acc' = fst acc ++ more.
Proof.
  intros N E. assert (Z : fst acc = fst acc ++ []) by (symmetry; apply app_nil_r).
  unfold gan_step in E. destruct n as [| | | | | | | | |k u p fs]; try (injection E as <-; exists []; exact Z).
  assert (C : forall t, exists more, (if snd acc || existsb (fun t => hd_is (Some t) (fst acc)) builtin_types then fst acc else gan_coll t (fst acc)) = fst acc ++ more).
  { intros t. unfold gan_coll. set (b := snd acc || _). set (d := (_ =? _)%nat || _). clearbody b d. clear E.
    destruct b; [exists []; exact Z|]. destruct d; [eexists; reflexivity|exists []; exact Z]. }
  assert (L : forall t, exists more, gan_lit t (fst acc) = fst acc ++ more).
  { intros t. unfold gan_lit. set (d := _ || _). clearbody d. clear E. destruct d; [eexists; reflexivity|exists []; exact Z]. }
  assert (G : forall t l, gan_num t (fst acc) = Ok l -> exists more, l = fst acc ++ more).
  { intros t l H. unfold gan_num in H. destruct (fst acc) as [|a r]; [contradiction|]. injection H as <-.
    destruct (_ && _); [exists [t]; reflexivity|exists []; exact Z]. }
  destruct k; try (injection E as <-; exists []; exact Z); try (injection E as <-; apply C).
  - injection E as <-. cbn [fst]. destruct (name_id (fld "value" fs)); [rewrite <- app_assoc|]; eexists; reflexivity.
  - injection E as <-. cbn [fst]. destruct (name_id (fld "func" fs)); [eexists; reflexivity|exists []; exact Z].
  - destruct (_ || _); [injection E as <-; exists []; exact Z|].
    destruct (fld "value" fs); try (injection E as <-; cbn [fst]; first [apply L | exists []; exact Z]).
    all: match type of E with mapr _ ?g = _ => destruct g as [l|] eqn:Q; [|discriminate] end; injection E as <-; exact (G _ _ Q).
Qed.
Lemma gan_loop_more man l : forall acc acc', fst acc <> [] -> gan_loop man l acc = Ok acc' -> exists more, fst acc' = fst acc ++ more.
Proof.
  induction l as [|n l IH]; intros acc acc' N E; cbn [gan_loop] in E; [injection E as <-; exists []; symmetry; apply app_nil_r|].
  destruct (gan_step man acc n) as [a|] eqn:S; [|discriminate]. cbn [bindr] in E. destruct (gan_step_more _ _ _ _ N S) as [m1 E1].
  destruct (IH a acc') as [m2 E2]; [|exact E|].
  - rewrite E1. destruct (fst acc); [contradiction|discriminate].
  - exists (m1 ++ m2). rewrite E2, E1, app_assoc. reflexivity.
Qed.
Lemma dotted_last l a : exists p, dotted (l ++ [Some a]) = p +++ a.
Proof.
  unfold dotted. assert (E : somes (l ++ [Some a]) = somes l ++ [a]).
  { induction l as [|y l IH]; [reflexivity|]. destruct y; cbn [app somes]; rewrite IH; reflexivity. }
  rewrite E. clear E. induction (somes l) as [|y r IH].
  - exists "". reflexivity.
  - destruct IH as [p IH]. exists (y +++ "." +++ p). destruct r as [|z r].
    + cbn [app join] in *. rewrite !app_assoc_s, <- IH. reflexivity.
    + change (join "." ((y :: z :: r) ++ [a])) with (y +++ "." +++ join "." ((z :: r) ++ [a])). rewrite IH, !app_assoc_s. reflexivity.
Qed.
Lemma attr_last man u p fs d : dotted_attr man (VNode KAttribute u p fs) = Ok d -> exists q, d = q +++ fstr "attr" fs.
Proof.
  intros E. unfold dotted_attr, get_attribute_name in E.
  assert (W : exists r, walk (VNode KAttribute u p fs) = VNode KAttribute u p fs :: r) by (eexists; reflexivity). destruct W as [r W].
  rewrite W in E. cbn [gan_loop] in E.
  set (a0 := gan_step man ([], false) (VNode KAttribute u p fs)) in E. destruct a0 as [a|] eqn:S; [|discriminate]. cbn [bindr] in E.
  destruct (gan_loop man r a) as [b|] eqn:L; [|discriminate]. cbn [mapr] in E. injection E as <-.
  assert (A : exists more, fst a = Some (fstr "attr" fs) :: more).
  { subst a0. cbn [gan_step] in S. injection S as <-. cbn [fst app]. destruct (name_id _); eexists; reflexivity. }
  destruct A as [m A]. destruct (gan_loop_more _ _ _ _ ltac:(rewrite A; discriminate) L) as [m' B]. rewrite B, A. cbn [app rev].
  apply dotted_last.
Qed.

Section Agree.
  Variables (c : config) (ft : list string) (ev hd sc : bool) (rs : list string) (path : string) (src : option string) (nol : list Z).
  Variables (sd : list (string * string) -> pyval -> res bool) (dump : pyval -> string).
  Notation c' := (w_features ft (w_eval_annotations ev (w_analyze_hidden hd (w_scan_symlink_folders sc (w_exclusion_regex_set rs c))))).
  Notation e := (mkEnv c path src nol sd dump).
  Notation e' := (mkEnv c' path src nol sd dump).
  (** Whether the settings for annotations differ. *)
  Variable D : bool.
  Hypothesis D_off : D = false -> ev = c_eval_annotations c.
  (** Names that may stand for generic types. *)
  Variable bad : string -> Prop.
  Notation bg := builtin_generic_annotation_types.
  Hypothesis bad_type : forall t, In t bg -> bad t.

  Lemma D_cases : D = true \/ D = false.
  Proof. destruct D; auto. Qed.

  Definition P (s : st) : Prop := D = true ->
    has_flag s FMaybeAnnotations = false /\
    (forall k m, assoc k (s_import_mem_mod s) = Some m -> In (dotted [Some m; Some k]) bg -> bad k) /\
    (forall k ts t, assoc k (s_name_res_type s) = Some ts -> In t ts -> In t bg -> bad k).
  Lemma P_frame s s' : P s -> s_flags s' = s_flags s -> s_import_mem_mod s' = s_import_mem_mod s ->
    s_name_res_type s' = s_name_res_type s -> P s'.
  Proof. intros H a1 a2 a3 d. unfold has_flag. rewrite a1, a2, a3. exact (H d). Qed.
  Lemma P_init : P init_st.
  Proof. intros _. split; [reflexivity|split; discriminate]. Qed.

  Definition ag (a a' : act) : Prop := forall s, P s -> a' s = a s /\ forall s', a s = Ok s' -> P s'.

  Lemma ag_seq a a' d d' : ag a a' -> ag d d' -> ag (a >> d) (a' >> d').
  Proof.
    intros A B s H. destruct (A s H) as [E K]. unfold seq. rewrite E. destruct (a s) as [s1|y]; [|split; [reflexivity|discriminate]].
    apply B, K. reflexivity.
  Qed.
  Lemma ag_nop : ag nop nop.
  Proof. intros s H. split; [reflexivity|]. intros s' E. injection E as <-. exact H. Qed.
  Lemma ag_fail y : ag (fail y) (fail y).
  Proof. intros s H. split; [reflexivity|discriminate]. Qed.
  Lemma ag_upd f : (forall s, P s -> P (f s)) -> ag (upd f) (upd f).
  Proof. intros F s H. split; [reflexivity|]. intros s' E. injection E as <-. apply F, H. Qed.
  Lemma ag_when d a a' : (d = true -> ag a a') -> ag (when d a) (when d a').
  Proof. destruct d; [auto|]. intros _. apply ag_nop. Qed.
  Lemma ag_rd f f' : (forall s, P s -> ag (f s) (f' s)) -> ag (rd f) (rd f').
  Proof. intros F s H. exact (F s H s H). Qed.
  Lemma ag_with_res {A} (m : res A) f f' : (forall a, m = Ok a -> ag (f a) (f' a)) -> ag (with_res m f) (with_res m f').
  Proof. intros F. destruct m; [apply F; reflexivity|apply ag_fail]. Qed.
  Lemma ag_each {A} (f f' : A -> act) l : (forall y, In y l -> ag (f y) (f' y)) -> ag (each f l) (each f' l).
  Proof.
    intros F. induction l as [|y l IH]; [apply ag_nop|]. cbn [each]. apply ag_seq; [apply F; left; reflexivity|].
    apply IH. intros z I. apply F. right. exact I.
  Qed.
  Lemma ag_each2 {A} (f : A -> act) l l' : Forall2 (fun y z => ag (f y) (f z)) l l' -> ag (each f l) (each f l').
  Proof. intros F. induction F; [apply ag_nop|]. cbn [each]. apply ag_seq; assumption. Qed.
  Lemma ag_scoped a a' : ag a a' -> ag (scoped a) (scoped a').
  Proof.
    intros A s H. destruct (A s H) as [E K]. unfold scoped. rewrite E. split; [reflexivity|].
    destruct (a s) as [s1|y]; [|discriminate]. intros s' Es. injection Es as <-.
    apply (P_frame s1); [apply K|..]; reflexivity.
  Qed.
  Lemma ag_no_line l a a' : ag a a' -> ag (unless_no_line e l a) (unless_no_line e' l a').
  Proof.
    intros A. unfold unless_no_line. change (is_no_line e' l) with (is_no_line e l).
    destruct (is_no_line e l); [apply ag_nop|exact A].
  Qed.
  Lemma ag_print lv m en li ve pl : ag (verbose_print_v e lv m en li ve pl) (verbose_print_v e' lv m en li ve pl).
  Proof.
    intros s H. split; [reflexivity|]. intros s' E. unfold verbose_print_v in E.
    destruct (violates e ve) as [[|]|]; [|injection E as <-; exact H|discriminate].
    destruct (_ || _); [injection E as <-; exact H|].
    destruct (match match en with Some _ => _ | None => _ end with Some _ => _ | None => _ end) as [l0 c0].
    injection E as <-. apply (P_frame s); [exact H|..]; reflexivity.
  Qed.
  Lemma ag_flag f : D = false \/ f <> FMaybeAnnotations -> ag (set_flag f) (set_flag f).
  Proof.
    intros F. apply ag_upd. intros s H d. destruct F as [F|F]; [congruence|]. destruct (H d) as (A & B & C).
    destruct (existsb _ _) eqn:X; [exact (H d)|]. split; [|split; assumption].
    unfold has_flag in *. cbn [u_flags s_flags]. cbn [existsb]. rewrite A, orb_false_r.
    destruct f; try reflexivity. contradiction.
  Qed.
  Lemma ag_user_def n : ag (add_user_def n) (add_user_def n).
  Proof. apply ag_upd. intros s H. apply (P_frame s); [exact H|..]; reflexivity. Qed.
  Lemma ag_lc n l k : ag (add_lc n l k) (add_lc n l k).
  Proof. apply ag_upd. intros s H. apply (P_frame s); [exact H|..]; reflexivity. Qed.
  Lemma ag_if (d : bool) a a' f f' : (d = true -> ag a a') -> (d = false -> ag f f') -> ag (if d then a else f) (if d then a' else f').
  Proof. destruct d; auto. Qed.

  Ltac frame := apply ag_upd; let s := fresh in let H := fresh in intros s H; apply (P_frame s); [exact H|reflexivity..].
  Ltac a1 :=
    lazymatch goal with
    | |- ag nop _ => apply ag_nop
    | |- ag (fail _) _ => apply ag_fail
    | |- ag (_ >> _) _ => apply ag_seq
    | |- ag (when ?d _) (when ?d' _) => change d' with d; apply ag_when; intros ?C
    | |- ag (rd _) _ => apply ag_rd; intros ?s ?Ps
    | |- ag (scoped _) _ => apply ag_scoped
    | |- ag (with_res ?m _) (with_res ?m' _) => change m' with m; apply ag_with_res; intros ?r ?Er
    | |- ag (unless_no_line _ _ _) _ => apply ag_no_line
    | |- ag (each _ _) _ => apply ag_each; intros ?y ?I
    | |- ag (set_flag _) _ => apply ag_flag; right; discriminate
    | |- ag (add_user_def _) _ => apply ag_user_def
    | |- ag (add_lc _ _ _) _ => apply ag_lc
    | |- ag (verbose_print_v _ _ _ _ _ _ _) _ => apply ag_print
    | |- ag (vv _ _ _) _ => apply ag_print
    | |- ag (vv_pl _ _ _ _) _ => apply ag_print
    | |- ag (vvl _ _ _ _) _ => apply ag_print
    | |- ag (vvl_pl _ _ _ _) _ => apply ag_print
    | |- ag (vv_msg _ _) _ => apply ag_print
    | |- ag (vvl_msg _ _ _) _ => apply ag_print
    | |- ag (vvv _ _ _) _ => apply ag_print
    | |- ag (vvvv _ _) _ => apply ag_print
    | |- ag (upd _) _ => frame
    | |- ag (let '(_, _) := ?y in _) _ => destruct y
    | |- ag (if ?d then _ else _) (if ?d' then _ else _) => change d' with d; destruct d eqn:?
    | |- ag (match ?d with _ => _ end) (match ?d' with _ => _ end) => change d' with d; destruct d eqn:?
    end.
  Ltac aa := repeat a1.

  Lemma ag_eval a a' f f' : D = false -> ag a a' -> ag f f' ->
    ag (if c_eval_annotations (e_cfg e) then a else f) (if c_eval_annotations (e_cfg e') then a' else f').
  Proof. intros d A B. change (c_eval_annotations (e_cfg e')) with ev. rewrite (D_off d). apply ag_if; auto. Qed.

  (** What is below a value has no construct that a difference is for. *)
  Definition fine (v : pyval) : Prop := forall n, below n v ->
    (has_feature c' "fstring-self-doc" = has_feature c "fstring-self-doc" \/ ~ isa KJoinedStr n) /\
    (has_feature c' "union-types" = has_feature c "union-types" \/ ~ bars n) /\
    (D = true -> ~ annotated n /\ (forall k, subscripted n k -> ~ bad k) /\
       (isa KImportFrom n -> forall a m, attr "module" n = VStr m -> In a (as_list (attr "names" n)) ->
          In (m +++ "." +++ as_str (attr "name" a)) bg -> bad (as_str (attr "name" a))) /\
       (forall x, isa KName (attr "value" n) -> In (as_str (attr "id" (attr "value" n))) bg ->
          (x = attr "target" n \/ In x (as_list (attr "targets" n))) -> isa KName x -> bad (as_str (attr "id" x)))).
  Lemma fine_field k u p fs f y : fine (VNode k u p fs) -> In (f, y) fs -> fine y.
  Proof. intros F I n B. apply F. exact (below_field _ _ _ _ _ _ _ I B). Qed.
  Lemma fine_item l a : fine (VList l) -> In a l -> fine a.
  Proof. intros F I n B. apply F. exact (below_item _ _ _ I B). Qed.
  Lemma fine_fld k u p fs f : fine (VNode k u p fs) -> fine (fld f fs).
  Proof.
    intros F. unfold fld. destruct (assoc f fs) as [y|] eqn:A; [|intros n B; inversion B; discriminate].
    apply (fine_field _ _ _ _ f y F). clear -A. induction fs as [|[g z] r IH]; [discriminate|]. cbn [assoc] in A.
    destruct (String.eqb f g) eqn:E; [|right; apply IH, A]. injection A as <-. apply String.eqb_eq in E as ->. left. reflexivity.
  Qed.

  Lemma ag_add_module m l k : ag (add_module e m l k) (add_module e' m l k).
  Proof. unfold add_module. aa. Qed.
  Lemma ag_add_member m l k : ag (add_member e m l k) (add_member e' m l k).
  Proof. unfold add_member. aa. Qed.
  Lemma ag_codecs f a w l : ag (check_codecs_function e f a w l) (check_codecs_function e' f a w l).
  Proof. unfold check_codecs_function, add_codecs_error_handler, add_codecs_encoding, when_const, add_ceh, add_cenc, add_lc_val. aa. Qed.
  Lemma ag_typecodes a l k : ag (add_typecodes a l k) (add_typecodes a l k).
  Proof. unfold add_typecodes, add_array_typecode. aa. Qed.
  Lemma ag_user_def_node w : ag (add_user_def_node w) (add_user_def_node w).
  Proof. unfold add_user_def_node. aa. Qed.
  Lemma ag_target_defs w : ag (add_target_defs w) (add_target_defs w).
  Proof. unfold add_target_defs. aa. apply ag_user_def_node. Qed.
  Lemma ag_type n m : (D = true -> In m bg -> bad n) -> ag (add_name_res_type n m) (add_name_res_type n m).
  Proof.
    intros B. apply ag_upd. intros s H d. destruct (H d) as (X & Y & Z). split; [exact X|]. split; [exact Y|].
    intros k ts t. cbn [u_name_res_type s_name_res_type]. rewrite assoc_dict_set. destruct (String.eqb k n) eqn:E; [|apply Z].
    apply String.eqb_eq in E as ->. intros Et I J. injection Et as <-. apply set_add_In in I as [->|I]; [exact (B d J)|].
    destruct (assoc n (s_name_res_type s)) as [l|] eqn:A; [exact (Z n l t A I J)|destruct I].
  Qed.
  Lemma ag_imm n m : (D = true -> In (m +++ "." +++ n) bg -> bad n) ->
    ag (upd (fun s => u_import_mem_mod (dict_set n m (s_import_mem_mod s)) s)) (upd (fun s => u_import_mem_mod (dict_set n m (s_import_mem_mod s)) s)).
  Proof.
    intros B. apply ag_upd. intros s H d. destruct (H d) as (X & Y & Z). split; [exact X|]. split; [|exact Z].
    intros k y. cbn [u_import_mem_mod s_import_mem_mod]. rewrite assoc_dict_set. destruct (String.eqb k n) eqn:E; [|apply Y].
    apply String.eqb_eq in E as ->. intros Ey. injection Ey as <-. exact (B d).
  Qed.
  Lemma name_id_isa x i : name_id x = Some i -> isa KName x /\ as_str (attr "id" x) = i.
  Proof.
    destruct x as [| | | | | | | | |k u p fs]; try discriminate. destruct k; try discriminate. intros E. injection E as <-. split; reflexivity.
  Qed.

  Section Node.
    Variables (k : kind) (u : N) (pos : option (Z * Z)) (fs : list (string * pyval)) (ks ks' : list (string * ksem)).
    Notation v := (VNode k u pos fs).
    Hypothesis F : fine v.
    Hypothesis Kids : Forall2 (fun y z => fst y = fst z /\ ag (visit_field (snd y)) (visit_field (snd z))) ks ks'.
    Hypothesis Body : forall f, Forall2 (fun y z => ag (k_visit y) (k_visit z) /\ ag (k_gvisit y) (k_gvisit z)) (k_list (kid f ks)) (k_list (kid f ks')).

    Lemma ag_fields l l' : Forall2 (fun y z => fst y = fst z /\ ag (visit_field (snd y)) (visit_field (snd z))) l l' -> ag (visit_fields l) (visit_fields l').
    Proof. intros H. apply ag_each2. induction H as [|y z l l' [_ A]]; constructor; assumption. Qed.
    Lemma ag_generic w : ag (generic_visit e w ks) (generic_visit e' w ks').
    Proof. unfold generic_visit. aa. apply ag_fields, Kids. Qed.
    Lemma ag_generic_drop w : ag (generic_visit e w (drop_returns ks)) (generic_visit e' w (drop_returns ks')).
    Proof.
      unfold generic_visit. aa. apply ag_fields. unfold drop_returns. assert (Q := Kids). clear -Q. induction Q as [|y z l l' [E A]]; cbn [map]; [constructor|]. constructor; [|assumption].
      rewrite <- E. destruct (String.eqb (fst y) "returns"); [split; [reflexivity|apply ag_nop]|split; assumption].
    Qed.
    Lemma ag_body f : ag (each k_visit (k_list (kid f ks))) (each k_visit (k_list (kid f ks'))).
    Proof. apply ag_each2. induction (Body f) as [|y z l l' [A _]]; constructor; assumption. Qed.
    Lemma ag_gbody f : ag (each k_gvisit (k_list (kid f ks))) (each k_gvisit (k_list (kid f ks'))).
    Proof. apply ag_each2. induction (Body f) as [|y z l l' [_ A]]; constructor; assumption. Qed.


    Lemma F_here : below v v.
    Proof. apply below_here. reflexivity. Qed.
    Lemma no_returns : D = true -> k = KFunctionDef \/ k = KAsyncFunctionDef -> fld "returns" fs = VNone.
    Proof.
      intros d K. destruct (F v F_here) as (_ & _ & H). destruct (H d) as (A & _).
      destruct (fld "returns" fs) eqn:E; try reflexivity; exfalso; apply A; right; left; (split; [destruct K as [->| ->]; [left|right]; reflexivity|]);
        change (fld "returns" fs <> VNone); rewrite E; discriminate.
    Qed.
    Lemma ag_annotations l args : (forall a, In a args -> fine a) -> ag (arg_annotations e l args) (arg_annotations e' l args).
    Proof.
      induction args as [|a args IH]; intros Fa; cbn [arg_annotations]; [apply ag_nop|].
      assert (R : ag (arg_annotations e l args) (arg_annotations e' l args)) by (apply IH; intros y I; apply Fa; right; exact I).
      destruct (is_none (attr "annotation" a)) eqn:N; [exact R|].
      assert (d : D = false).
      { destruct D_cases as [d|d]; [|exact d]. exfalso. destruct a as [| | | | | | | | |ka ua pa fa]; try discriminate N.
        destruct (Fa (VNode ka ua pa fa) (or_introl eq_refl) (VNode ka ua pa fa) (below_here (VNode ka ua pa fa) eq_refl)) as (_ & _ & H).
        destruct (H d) as (A & _). apply A. right. right. intros Q. rewrite Q in N. discriminate. }
      assert (L : ag (if c_eval_annotations (e_cfg e) then set_flag FLiteralAnnotations >> vvl e "literal variable annotations" l (None, Some (3, 8)) else set_flag FMaybeAnnotations)
                     (if c_eval_annotations (e_cfg e') then set_flag FLiteralAnnotations >> vvl e' "literal variable annotations" l (None, Some (3, 8)) else set_flag FMaybeAnnotations)).
      { apply ag_eval; [exact d|aa|apply ag_flag; left; exact d]. }
      repeat first [exact L | exact R | a1].
    Qed.
    Lemma ag_relaxed l : ag (check_relaxed_decorators e l) (check_relaxed_decorators e' l).
    Proof. unfold check_relaxed_decorators. aa. Qed.
    Lemma ag_functiondef : k = KFunctionDef \/ k = KAsyncFunctionDef -> ag (handle_functiondef e v fs ks) (handle_functiondef e' v fs ks').
    Proof.
      intros K. unfold handle_functiondef, check_user_func_decorators, add_user_func_deco.
      assert (G : ag (if negb (c_eval_annotations (e_cfg e)) && negb (is_none (fld "returns" fs)) then generic_visit e (without_returns v) (drop_returns ks) else generic_visit e v ks)
                     (if negb (c_eval_annotations (e_cfg e')) && negb (is_none (fld "returns" fs)) then generic_visit e' (without_returns v) (drop_returns ks') else generic_visit e' v ks')).
      { destruct D_cases as [d|d].
        - rewrite no_returns by assumption. cbn [is_none negb]. rewrite !andb_false_r. apply ag_generic.
        - change (c_eval_annotations (e_cfg e')) with ev. rewrite (D_off d). destruct (_ && _); [apply ag_generic_drop|apply ag_generic]. }
      assert (Aa : forall l, ag (arg_annotations e l (as_list (attr "args" (fld "args" fs)))) (arg_annotations e' l (as_list (attr "args" (fld "args" fs))))).
      { intros l. apply ag_annotations. intros a I. pose proof (fine_fld _ _ _ _ "args" F) as Fg.
        destruct (fld "args" fs) as [| | | | | | | | |ka ua pa fa]; try destruct I. cbn [attr] in I. pose proof (fine_fld _ _ _ _ "args" Fg) as Fl.
        destruct (fld "args" fa) eqn:El; unfold attr in I; cbn [Ast.fields] in I; rewrite El in I; try destruct I as []; exact (fine_item _ _ Fl I). }
      repeat first [apply ag_relaxed | exact G | apply Aa | a1].
    Qed.
    Lemma ag_call w : ag (visit_call e w pos fs ks) (visit_call e' w pos fs ks').
    Proof.
      unfold visit_call, check_gen_unp_call, gen_unpacking, call_attribute, strftime_arg, add_strftime_directive, when_const, call_name, pop_fn, push_fn.
      repeat first [apply ag_generic | apply ag_codecs | apply ag_typecodes | apply ag_add_member | a1].
    Qed.
    Lemma ag_attribute w : ag (visit_attribute e w ks) (visit_attribute e' w ks').
    Proof.
      unfold visit_attribute, attr_module, attr_resolve.
      repeat first [apply ag_generic | apply ag_add_module | apply ag_add_member | a1].
    Qed.
    Lemma ag_keyword w : ag (visit_keyword e w fs ks) (visit_keyword e' w fs ks').
    Proof.
      unfold visit_keyword, add_kwargs. repeat first [apply ag_generic | a1].
    Qed.
    Lemma ag_import : ag (visit_import e pos fs) (visit_import e' pos fs).
    Proof. unfold visit_import. repeat first [apply ag_add_module | apply ag_add_member | a1]. Qed.
    Lemma ag_import_from : k = KImportFrom -> ag (visit_import_from e pos fs) (visit_import_from e' pos fs).
    Proof.
      intros K. unfold visit_import_from. destruct (fld "module" fs) as [| | | | |module| | | |] eqn:M; try apply ag_nop.
      assert (B : forall a, In a (flist "names" fs) -> D = true -> In (module +++ "." +++ as_str (attr "name" a)) bg -> bad (as_str (attr "name" a))).
      { intros a I d J. destruct (F v F_here) as (_ & _ & H). destruct (H d) as (_ & _ & Im & _).
        apply (Im ltac:(rewrite K; reflexivity) a module); [exact M|exact I|exact J]. }
      destruct (match fld "level" fs with VInt _ => _ | _ => _ end); [apply ag_nop|]. a1.
      repeat first [apply ag_add_module | apply ag_add_member | apply ag_imm; apply B; assumption | a1].
    Qed.
    Lemma ag_assign l : (forall x, In x l -> x = fld "target" fs \/ In x (flist "targets" fs)) ->
      ag (add_name_res_assign l (fld "value" fs)) (add_name_res_assign l (fld "value" fs)).
    Proof.
      intros L. unfold add_name_res_assign, add_name_res. a1. a1. a1.
      destruct (name_id y) as [n|] eqn:Ny; [|apply ag_nop]. destruct r as [[w|] [ty|]]; try (aa; fail).
      apply ag_type. intros d J. destruct (name_id_isa _ _ Ny) as [Ky <-].
      destruct (F v F_here) as (_ & _ & H). destruct (H d) as (_ & _ & _ & G). specialize (L y I).
      assert (V : isa KName (attr "value" v) /\ as_str (attr "id" (attr "value" v)) = ty \/ ty = "None").
      { change (attr "value" v) with (fld "value" fs). destruct (fld "value" fs) as [| | | | | | | | |kv uv pv fv]; try discriminate Er.
        destruct kv; try discriminate Er; unfold assigned_name in Er.
        - destruct (dotted_attr _ _); discriminate Er.
        - destruct (name_id _); [discriminate|]. destruct (is_kind _ _); [|discriminate]. destruct (dotted_attr _ _); discriminate Er.
        - destruct (fld "value" fv); try discriminate Er. injection Er as <-. right. reflexivity.
        - injection Er as <-. left. split; reflexivity. }
      destruct V as [[V1 V2]| ->].
      - apply (G y V1); [rewrite V2; exact J|exact L|exact Ky].
      - exfalso. clear -J. apply mem_In in J. vm_compute in J. discriminate.
    Qed.
    Lemma ag_subscript : k = KSubscript -> ag (check_builtin_generic e (fld "value" fs)) (check_builtin_generic e' (fld "value" fs)).
    Proof.
      intros K. destruct D_cases as [d|d].
      - unfold check_builtin_generic. a1. a1. destruct r as [n|]; [|apply ag_nop].
        assert (B : ~ bad n).
        { destruct (F v F_here) as (_ & _ & H). destruct (H d) as (_ & S & _). apply S. split; [rewrite K; reflexivity|].
          change (attr "value" v) with (fld "value" fs). destruct (fld "value" fs) as [| | | | | | | | |kv uv pv fv]; try discriminate Er.
          destruct kv; try discriminate Er; unfold operand_name in Er.
          - destruct (dotted_attr _ _) as [q|] eqn:Q; [|discriminate]. injection Er as <-. right. split; [reflexivity|]. exact (attr_last _ _ _ _ _ Q).
          - injection Er as <-. left. split; reflexivity. }
        destruct (Ps d) as (_ & Im & Ty).
        destruct (mem n bg) eqn:M; [exfalso; apply B, bad_type, mem_In, M|].
        destruct (assoc n (s_import_mem_mod s)) as [m|] eqn:A.
        + apply ag_when. intros W. exfalso. apply B, (Im n m A), mem_In, W.
        + destruct (assoc n (s_name_res_type s)) as [ts|] eqn:A2; [|apply ag_nop]. apply ag_each. intros t I. apply ag_when.
          intros W. exfalso. apply B, (Ty n ts t A2 I), mem_In, W.
      - assert (G : forall n, ag (generic_match e n) (generic_match e' n)).
        { intros n. unfold generic_match. apply ag_eval; [exact d|aa|apply ag_flag; left; exact d]. }
        unfold check_builtin_generic. repeat first [apply G | a1].
    Qed.
    Lemma ag_annassign : k = KAnnAssign -> ag (visit_annassign e v fs ks) (visit_annassign e' v fs ks').
    Proof.
      intros K. assert (d : D = false).
      { destruct D_cases as [d|d]; [|exact d]. exfalso. destruct (F v F_here) as (_ & _ & H). destruct (H d) as (A & _). apply A. left. rewrite K. reflexivity. }
      unfold visit_annassign.
      repeat first [apply ag_eval; [exact d|apply ag_generic|apply ag_flag; left; exact d] | apply ag_user_def_node
        | apply ag_assign; intros x [<-|[]]; left; reflexivity | a1].
    Qed.
    Lemma union_same : k = KBinOp \/ k = KAugAssign -> is_kind KBitOr (fld "op" fs) = true -> union_types_enabled e' = union_types_enabled e.
    Proof.
      intros K O. destruct (F v F_here) as (_ & [H|H] & _); [exact H|]. exfalso. apply H. split; [destruct K as [->| ->]; [left|right]; reflexivity|exact O].
    Qed.
    Lemma fstring_same : k = KJoinedStr -> fstring_self_doc_enabled e' = fstring_self_doc_enabled e.
    Proof. intros K. destruct (F v F_here) as ([H|H] & _); [exact H|]. exfalso. apply H. rewrite K. reflexivity. Qed.

    Lemma ag_handler : ag (handler e k u pos fs ks) (handler e' k u pos fs ks').
    Proof.
      pose proof (ag_attribute v) as Att. pose proof (ag_call v) as Call. pose proof (ag_keyword v) as Kw.
      pose proof ag_functiondef as Fd. pose proof ag_import as Im. pose proof ag_import_from as If_.
      pose proof ag_assign as As. pose proof ag_subscript as Su. pose proof ag_annassign as An.
      pose proof union_same as U. pose proof fstring_same as J.
      destruct k; cbn [handler];
        first [apply ag_nop | apply ag_generic | exact Att | exact Call | exact Kw | exact Im | exact (If_ eq_refl) | exact (An eq_refl) | idtac].
      all: try specialize (Fd ltac:(auto)); try specialize (Su eq_refl).
      all: unfold gen_unpacking, check_gen_unp_seq, check_gen_unp_dict, visit_binop, visit_constant, visit_ellipsis, visit_joinedstr,
        add_bytes_directive, visit_assign, visit_augassign, visit_functiondef, visit_asyncfunctiondef, visit_await,
        visit_classdef, visit_namedexpr, visit_arguments, visit_nonlocal, visit_yieldfrom, visit_match, visit_typealias, visit_yield,
        visit_raise, visit_excepthandler, visit_setcomp, visit_dictcomp, comp_scope, visit_comprehension, visit_matmult, visit_continue,
        visit_with, visit_asyncwith, handle_with, visit_dict, visit_set, visit_seq, check_gen_unp_seq, check_gen_unp_dict, gen_unpacking,
        visit_subscript, visit_cond, visit_asyncfor, handle_for, visit_while, visit_try, visit_starred, visit_name.
      all: unfold add_arg_def, add_names_as_members, add_name_res.
      all: repeat first
        [ apply ag_generic | apply ag_body | apply ag_gbody | exact Fd | exact Su | apply ag_relaxed | apply ag_target_defs | apply ag_user_def_node
        | apply As; solve [auto | intros ? [<-|[]]; auto] | apply ag_type; intros _; apply bad_type | apply ag_add_member
        | rewrite (U ltac:(auto) ltac:(assumption)) | rewrite (J eq_refl) | a1 ].
    Qed.
  End Node.
  Lemma sem_ag v : fine v ->
    ag (k_visit (sem e v)) (k_visit (sem e' v)) /\ ag (k_gvisit (sem e v)) (k_gvisit (sem e' v)) /\
    ag (visit_field (sem e v)) (visit_field (sem e' v)) /\
    Forall2 (fun y z => ag (k_visit y) (k_visit z) /\ ag (k_gvisit y) (k_gvisit z)) (k_list (sem e v)) (k_list (sem e' v)).
  Proof.
    induction v as [ |d|z|s|s|s|s| |l IH|k u p fs IH] using pyval_rect'; intros F;
      try (split; [apply ag_nop|split; [apply ag_nop|split; [apply ag_nop|constructor]]]; fail).
    - assert (L : Forall2 (fun y z => ag (k_visit y) (k_visit z) /\ ag (k_gvisit y) (k_gvisit z)) (map (sem e) l) (map (sem e') l)).
      { assert (Fi : forall y, In y l -> fine y) by (intros y I; exact (fine_item l y F I)). clear F.
        induction IH as [|y l H _ IH]; cbn [map]; constructor.
        - destruct (H (Fi y (or_introl eq_refl))) as (A & B & _). split; assumption.
        - apply IH. intros z I. apply Fi. right. exact I. }
      cbn [sem k_visit k_gvisit visit_field k_list]. split; [apply ag_nop|split; [apply ag_nop|split; [|exact L]]].
      apply ag_each2. clear -L. induction L as [|y z ? ? [A _]]; constructor; assumption.
    - rewrite Forall_forall in IH.
      set (ks := map (fun fx => (fst fx, sem e (snd fx))) fs). set (ks' := map (fun fx => (fst fx, sem e' (snd fx))) fs).
      assert (Fi : forall f y, In (f, y) fs -> fine y).
      { intros f y I. exact (fine_field _ _ _ _ _ _ F I). }
      assert (Kids : Forall2 (fun y z => fst y = fst z /\ ag (visit_field (snd y)) (visit_field (snd z))) ks ks').
      { subst ks ks'. assert (H : forall f y, In (f, y) fs -> ag (visit_field (sem e y)) (visit_field (sem e' y))).
        { intros f y I. apply (IH (f, y) I), (Fi f y I). }
        clear -H. induction fs as [|[f y] r IH]; cbn [map]; constructor.
        - split; [reflexivity|]. apply (H f y). left. reflexivity.
        - apply IH. intros g z I. apply (H g z). right. exact I. }
      assert (Body : forall f, Forall2 (fun y z => ag (k_visit y) (k_visit z) /\ ag (k_gvisit y) (k_gvisit z)) (k_list (kid f ks)) (k_list (kid f ks'))).
      { intros f. subst ks ks'.
        assert (H : forall f y, In (f, y) fs -> Forall2 (fun y z => ag (k_visit y) (k_visit z) /\ ag (k_gvisit y) (k_gvisit z)) (k_list (sem e y)) (k_list (sem e' y))).
        { intros g y I. apply (IH (g, y) I), (Fi g y I). }
        clear -H. unfold kid. induction fs as [|[g y] r IH]; cbn [map assoc fst snd]; [constructor|].
        destruct (String.eqb f g); [apply (H g y); left; reflexivity|]. apply IH. intros h z I. apply (H h z). right. exact I. }
      pose proof (ag_handler k u p fs ks ks' F Kids Body) as H.
      split; [exact H|split; [exact (ag_generic ks ks' Kids (VNode k u p fs))|split; [exact H|constructor]]].
  Qed.


  Lemma tour_ag v : fine v -> tour e' v = tour e v /\ forall s, tour e v = Ok s -> P s.
  Proof.
    intros F. assert (A : ag (visit e v >> after_visit_all e) (visit e' v >> after_visit_all e')); [|exact (A init_st P_init)].
    apply ag_seq; [exact (proj1 (sem_ag v F))|]. unfold after_visit_all, drop_user_def. aa.
  Qed.
End Agree.
