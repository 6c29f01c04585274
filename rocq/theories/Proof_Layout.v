(** Sources that only differ in layout. Lemmas for C77. *)
From Verif Require Import PyBase PyLemmas Utility RulesData Rules Config Formats Paths AstKinds Ast State Visitor
  Spec_Base Spec_Visitor Spec_Seen Spec_MinVersions Spec_Same Spec_Layout Proof_Tour Proof_Same.
From Verif Require Proof_Shapes Proof_Forms Proof_Sight.

(** ** What does not depend on positions *)
Section Relay.
  Variable f : N -> option (Z * Z) -> option (Z * Z).
  Notation R := (relay f).
  Notation Rs := (map (fun fx : string * pyval => (fst fx, relay f (snd fx)))).

  Lemma assoc_relay g fs : assoc g (Rs fs) = option_map R (assoc g fs).
  Proof. induction fs as [|[h x] fs IH]; cbn; auto. destruct (String.eqb g h); auto. Qed.
  Lemma fld_relay g fs : fld g (Rs fs) = R (fld g fs).
  Proof. unfold fld. rewrite assoc_relay. destruct (assoc g fs); reflexivity. Qed.
  Lemma fields_relay v : fields (R v) = Rs (fields v).
  Proof. destruct v; reflexivity. Qed.
  Lemma attr_relay g v : attr g (R v) = R (attr g v).
  Proof. unfold attr. rewrite fields_relay. apply fld_relay. Qed.
  Lemma as_list_relay v : as_list (R v) = map R (as_list v).
  Proof. destruct v; reflexivity. Qed.
  Lemma as_str_relay v : as_str (R v) = as_str v.
  Proof. destruct v; reflexivity. Qed.
  Lemma as_ostr_relay v : as_ostr (R v) = as_ostr v.
  Proof. destruct v; reflexivity. Qed.
  Lemma is_kind_relay k v : is_kind k (R v) = is_kind k v.
  Proof. destruct v; reflexivity. Qed.
  Lemma is_none_relay v : is_none (R v) = is_none v.
  Proof. destruct v; reflexivity. Qed.
  Lemma is_node_relay v : is_node (R v) = is_node v.
  Proof. destruct v; reflexivity. Qed.
  Lemma uid_relay v : uid_of (R v) = uid_of v.
  Proof. destruct v; reflexivity. Qed.
  Lemma flist_relay g fs : flist g (Rs fs) = map R (flist g fs).
  Proof. unfold flist. rewrite fld_relay. apply as_list_relay. Qed.
  Lemma fstr_relay g fs : fstr g (Rs fs) = fstr g fs.
  Proof. unfold fstr. rewrite fld_relay. apply as_str_relay. Qed.
  Lemma name_id_relay v : name_id (R v) = name_id v.
  Proof. destruct v as [| | | | | | | | |k]; try reflexivity. cbn. destruct k; try reflexivity. now rewrite fstr_relay. Qed.
  Lemma const_val_relay v : const_val (R v) = option_map R (const_val v).
  Proof. destruct v as [| | | | | | | | |k]; try reflexivity. cbn. destruct k; try reflexivity. cbn. now rewrite fld_relay. Qed.
  Ltac by_const := rewrite const_val_relay; match goal with |- context [const_val ?v] => destruct (const_val v) as [[]|]; reflexivity end.
  Lemma str_val_relay v : str_val (R v) = str_val v.
  Proof. unfold str_val. by_const. Qed.
  Lemma bytes_relay v : is_bytes_node (R v) = is_bytes_node v.
  Proof. unfold is_bytes_node. by_const. Qed.
  Lemma int_const_relay v : int_const (R v) = int_const v.
  Proof. unfold int_const. by_const. Qed.
  Lemma slice_index_relay v : slice_index (R v) = slice_index v.
  Proof. unfold slice_index. by_const. Qed.
  Lemma ellipsis_relay v : is_ellipsis_node (R v) = is_ellipsis_node v.
  Proof. unfold is_ellipsis_node. by_const. Qed.
  Lemma none_node_relay v : is_none_node (R v) = is_none_node v.
  Proof. unfold is_none_node. rewrite name_id_relay. destruct (name_id v); auto. by_const. Qed.
  Lemma int_node_relay v : is_int_node (R v) = is_int_node v.
  Proof. unfold is_int_node. now rewrite attr_relay, !int_const_relay, is_kind_relay. Qed.
  Lemma neg_int_relay v : is_neg_int_node (R v) = is_neg_int_node v.
  Proof. unfold is_neg_int_node. now rewrite !attr_relay, !int_const_relay, !is_kind_relay. Qed.
  Lemma star_relay v : is_valid_star_unpack (R v) = is_valid_star_unpack v.
  Proof. unfold is_valid_star_unpack. now rewrite attr_relay, !is_kind_relay. Qed.
  Lemma kw_unpack_relay v : is_kw_unpack (R v) = is_kw_unpack v.
  Proof. unfold is_kw_unpack. now rewrite !attr_relay, !is_none_relay. Qed.
  Lemma kw_arg_relay l v : kw_arg_in l (R v) = kw_arg_in l v.
  Proof. unfold kw_arg_in. now rewrite attr_relay, as_ostr_relay. Qed.
  Lemma const_text_relay v : const_text (R v) = const_text v.
  Proof. destruct v; reflexivity. Qed.
  Lemma ann_is_relay n v : ann_is n (R v) = ann_is n v.
  Proof. unfold ann_is. now rewrite attr_relay, !name_id_relay, is_kind_relay. Qed.

  Lemma existsb_relay (g : pyval -> bool) l : (forall x, g (R x) = g x) -> existsb g (map R l) = existsb g l.
  Proof. intros G. induction l as [|x l IH]; cbn; auto. now rewrite G, IH. Qed.
  Lemma positions_relay (g : pyval -> bool) l : (forall x, g (R x) = g x) -> forall i, positions g i (map R l) = positions g i l.
  Proof. intros G. induction l as [|x l IH]; intros i; cbn; auto. now rewrite G, !IH. Qed.
  Lemma gen_unp_relay (g : pyval -> bool) l : (forall x, g (R x) = g x) -> needs_gen_unp g (map R l) = needs_gen_unp g l.
  Proof. intros G. unfold needs_gen_unp. now rewrite (positions_relay g l G), map_length. Qed.
  Lemma combine_relay k l : existsb (fun kv : pyval * pyval => is_none (fst kv) && negb (is_none (snd kv))) (combine (map R k) (map R l)) =
    existsb (fun kv : pyval * pyval => is_none (fst kv) && negb (is_none (snd kv))) (combine k l).
  Proof.
    revert l. induction k as [|x k IH]; intros [|y l]; cbn; auto. now rewrite !is_none_relay, IH.
  Qed.
  Lemma filter_relay (g : pyval -> bool) l : (forall x, g (R x) = g x) -> filter g (map R l) = map R (filter g l).
  Proof. intros G. induction l as [|x l IH]; cbn; auto. rewrite G. destruct (g x); cbn; now rewrite IH. Qed.
  Lemma slice_ellipses_relay v : slice_ellipses (R v) = slice_ellipses v.
  Proof.
    unfold slice_ellipses. rewrite ellipsis_relay, is_kind_relay, uid_relay, attr_relay, as_list_relay.
    rewrite filter_relay by apply ellipsis_relay. rewrite map_map.
    rewrite (map_ext (fun x => uid_of (R x)) uid_of); auto. apply uid_relay.
  Qed.

  Lemma merge_map (a b : list (list pyval)) : merge (map (map R) a) (map (map R) b) = map (map R) (merge a b).
  Proof. revert b. induction a as [|x a IH]; intros [|y b]; cbn; auto. now rewrite IH, map_app. Qed.
  Lemma merge_all_map (l : list (list (list pyval))) : merge_all (map (map (map R)) l) = map (map R) (merge_all l).
  Proof. induction l as [|x l IH]; cbn; auto. now rewrite IH, merge_map. Qed.
  Lemma levels_relay v : levels (R v) = map (map R) (levels v).
  Proof.
    induction v as [ |b|z|s|s|s|s| |l IH|k u p fs IH] using pyval_rect'; try reflexivity.
    - cbn [relay levels]. rewrite <- merge_all_map, !map_map. f_equal. apply map_ext_Forall. exact IH.
    - cbn [relay levels map]. f_equal. rewrite <- merge_all_map, !map_map. f_equal. apply map_ext_Forall. exact IH.
  Qed.
  Lemma walk_relay v : walk (R v) = map R (walk v).
  Proof. unfold walk. rewrite levels_relay. symmetry. apply concat_map. Qed.
  Lemma target_levels_relay v : target_levels (R v) = map (map R) (target_levels v).
  Proof.
    induction v as [ |b|z|s|s|s|s| |l IH|k u p fs IH] using pyval_rect'; try reflexivity.
    - cbn [relay target_levels]. rewrite <- merge_all_map, !map_map. f_equal. apply map_ext_Forall. exact IH.
    - assert (E : merge_all (map (fun fx => target_levels (snd fx)) (Rs fs)) = map (map R) (merge_all (map (fun fx => target_levels (snd fx)) fs))).
      { rewrite <- merge_all_map, !map_map. f_equal. apply map_ext_Forall. exact IH. }
      cbn [relay]. destruct k; cbn [target_levels map relay]; rewrite ?E; reflexivity.
  Qed.
  Lemma target_walk_relay v : assign_target_walk (R v) = map R (assign_target_walk v).
  Proof. unfold assign_target_walk. rewrite target_levels_relay. symmetry. apply concat_map. Qed.

  Lemma gan_step_relay man acc v : gan_step man acc (R v) = gan_step man acc v.
  Proof.
    destruct v as [| | | | | | | | |k u p fs]; try reflexivity. cbn [relay]. unfold gan_step. destruct k; try reflexivity.
    - rewrite fstr_relay, fld_relay, name_id_relay. reflexivity.
    - rewrite fld_relay, name_id_relay. reflexivity.
    - rewrite fld_relay. destruct (fld "value" fs); reflexivity.
  Qed.
  Lemma gan_loop_relay man l : forall acc, gan_loop man (map R l) acc = gan_loop man l acc.
  Proof.
    induction l as [|x l IH]; intros acc; cbn; auto. rewrite gan_step_relay. destruct (gan_step man acc x); cbn; auto.
  Qed.
  Lemma gan_relay man v : get_attribute_name man (R v) = get_attribute_name man v.
  Proof. unfold get_attribute_name. now rewrite walk_relay, gan_loop_relay. Qed.
  Lemma dotted_attr_relay man v : dotted_attr man (R v) = dotted_attr man v.
  Proof. unfold dotted_attr. now rewrite gan_relay. Qed.
  Lemma is_dict_tree_relay nr v : is_dict_tree nr (R v) = is_dict_tree nr v.
  Proof.
    induction v as [ |b|z|s|s|s|s| |l IH|k u p fs IH] using pyval_rect'; try reflexivity.
    - cbn [relay is_dict_tree]. f_equal. rewrite map_map. apply map_ext_Forall. exact IH.
    - assert (E : map (fun fx => (fst fx, is_dict_tree nr (snd fx))) (Rs fs) = map (fun fx => (fst fx, is_dict_tree nr (snd fx))) fs).
      { rewrite map_map. apply map_ext_Forall. cbn [fst snd]. apply Forall_impl with (2 := IH). intros a ->. reflexivity. }
      cbn [relay is_dict_tree]. rewrite E, !fld_relay, fstr_relay, name_id_relay, slice_index_relay, is_kind_relay. reflexivity.
  Qed.
  Lemma is_dict_relay nr v : is_dict nr (R v) = is_dict nr v.
  Proof. unfold is_dict. now rewrite is_dict_tree_relay. Qed.
  Lemma iter_dict_relay nr v : iter_has_dict nr (R v) = iter_has_dict nr v.
  Proof. unfold iter_has_dict. rewrite !attr_relay, !as_list_relay, !existsb_relay; auto; apply is_dict_relay. Qed.
  Lemma assigned_relay man v : assigned_name man (R v) = assigned_name man v.
  Proof.
    destruct v as [| | | | | | | | |k u p fs]; try reflexivity.
    change (R (VNode k u p fs)) with (VNode k u (f u p) (Rs fs)). unfold assigned_name.
    destruct k; try reflexivity; rewrite ?fld_relay, ?fstr_relay; cbn iota.
    - change (VNode KAttribute u (f u p) (Rs fs)) with (R (VNode KAttribute u p fs)). now rewrite dotted_attr_relay.
    - now rewrite name_id_relay, is_kind_relay, dotted_attr_relay.
    - destruct (fld "value" fs); reflexivity.
    - reflexivity.
  Qed.
  Lemma resolve_relay s v : resolve_full_name s (R v) = resolve_full_name s v.
  Proof.
    destruct v as [| | | | | | | | |k u p fs]; try reflexivity.
    change (R (VNode k u p fs)) with (VNode k u (f u p) (Rs fs)). unfold resolve_full_name.
    destruct k; try reflexivity; rewrite ?fld_relay, ?fstr_relay, ?name_id_relay; try reflexivity.
    change (VNode KAttribute u (f u p) (Rs fs)) with (R (VNode KAttribute u p fs)). now rewrite dotted_attr_relay.
  Qed.
  Lemma operand_relay s v : operand_name s (R v) = operand_name s v.
  Proof.
    destruct v as [| | | | | | | | |k u p fs]; try reflexivity.
    change (R (VNode k u p fs)) with (VNode k u (f u p) (Rs fs)). unfold operand_name.
    destruct k; try reflexivity; rewrite ?fstr_relay; try reflexivity.
    change (VNode KAttribute u (f u p) (Rs fs)) with (R (VNode KAttribute u p fs)). now rewrite dotted_attr_relay.
  Qed.
  Lemma none_or_name_relay s v : is_none_or_name s (R v) = is_none_or_name s v.
  Proof. unfold is_none_or_name. now rewrite none_node_relay, operand_relay. Qed.
  Lemma union_relay s v : is_union_type s (R v) = is_union_type s v.
  Proof. unfold is_union_type. now rewrite operand_relay. Qed.
  Lemma relaxed_relay v : is_relaxed_deco (R v) = is_relaxed_deco v.
  Proof.
    unfold is_relaxed_deco. rewrite is_kind_relay, attr_relay.
    replace (if is_kind KCall v then R (attr "func" v) else R v) with (R (if is_kind KCall v then attr "func" v else v))
      by (destruct (is_kind KCall v); reflexivity).
    rewrite walk_relay, existsb_relay; auto. intros x. unfold plain_deco_node. now rewrite !is_kind_relay.
  Qed.
End Relay.

Lemma sim_each_map {A B} (h : A -> B) (f : A -> act) (f' : B -> act) l :
  (forall x, In x l -> sim (f x) (f' (h x))) -> sim (each f l) (each f' (map h l)).
Proof.
  intros F. induction l; [apply sim_nop|]. cbn [each map]. apply sim_seq; [apply F; left; reflexivity|].
  apply IHl. intros x I. apply F. right. exact I.
Qed.
Lemma no_line_iff e l : is_no_line e l = true <-> In l (e_nolines e).
Proof.
  unfold is_no_line. rewrite existsb_exists. split.
  - intros (x & I & E). apply Z.eqb_eq in E as ->. exact I.
  - intros I. exists l. split; [exact I|apply Z.eqb_refl].
Qed.
Lemma plain_same f n c : plain_constant n -> const_val n = Some c -> relay f c = c.
Proof.
  intros P H. destruct n as [| | | | | | | | |k u p fs]; try discriminate. destruct k; try discriminate. cbn in H. injection H as <-.
  unfold fld. destruct (assoc "value" fs) as [x|] eqn:E; [|reflexivity]. apply assoc_In in E.
  destruct (P eq_refl _ x E) as [A B]. destruct x as [| | | | | | | |l|]; try reflexivity; [|discriminate].
  cbn in B. subst l. reflexivity.
Qed.
Lemma below_flist g fs x k u p : In x (flist g fs) -> is_node x = true -> below x (VNode k u p fs).
Proof.
  unfold flist, fld. destruct (assoc g fs) as [y|] eqn:E; [|intros []]. intros I N. apply assoc_In in E.
  apply (below_field _ _ _ _ _ g y E). destruct y as [| | | | | | | |l|]; try (destruct I; fail).
  apply (below_item _ l x); [assumption|apply below_here, N].
Qed.
Lemma below_attr g v : is_node (attr g v) = true -> below (attr g v) v.
Proof.
  destruct v as [| | | | | | | | |k u p fs]; try discriminate. unfold attr, fld. cbn [fields].
  destruct (assoc g fs) as [y|] eqn:E; [|discriminate]. intros N. apply assoc_In in E.
  apply (below_field _ _ _ _ _ g y E). apply below_here, N.
Qed.

Section Lay.
  Variables (c : config) (path : string) (src src' : option string) (nl nl' : list Z)
    (sd sd' : list (string * string) -> pyval -> res bool) (d d' : pyval -> string)
    (f : N -> option (Z * Z) -> option (Z * Z)).
  Hypothesis Targets : targets_given c.
  Hypothesis Sd : forall man v, sd' man (relay f v) = sd man v.
  Let e := mkEnv c path src nl sd d.
  Let e' := mkEnv c path src' nl' sd' d'.
  Notation R := (relay f).
  Notation Rs := (map (fun fx : string * pyval => (fst fx, relay f (snd fx)))).

  Lemma lay_print lv m en li ve pl lv' m' en' li' ve' pl' :
    sim (verbose_print_v e lv m en li ve pl) (verbose_print_v e' lv' m' en' li' ve' pl').
  Proof.
    intros s s' (o & l & k & ->).
    destruct (print_quiet e lv m en li ve pl s Targets) as (o1 & ->).
    destruct (print_quiet e' lv' m' en' li' ve' pl' (u_out o (u_line l (u_lcs k s))) Targets) as (o2 & ->).
    exists o2, l, k. reflexivity.
  Qed.
  Lemma lay_no_line l l' a a' : is_no_line e' l' = is_no_line e l -> sim a a' -> sim (unless_no_line e l a) (unless_no_line e' l' a').
  Proof. unfold unless_no_line. intros ->. destruct (is_no_line e l); auto. intros _. apply sim_nop. Qed.

  Ltac rl := change (e_cfg e) with c; change (e_cfg e') with c; change (union_types_enabled e') with (union_types_enabled e);
    change (fstring_self_doc_enabled e') with (fstring_self_doc_enabled e); change (is_init_file e') with (is_init_file e); rewrite ?fld_relay, ?attr_relay, ?flist_relay, ?fstr_relay, ?as_list_relay, ?as_str_relay, ?as_ostr_relay, ?is_kind_relay,
    ?is_none_relay, ?is_node_relay, ?name_id_relay, ?str_val_relay, ?bytes_relay, ?none_node_relay, ?int_node_relay, ?neg_int_relay,
    ?kw_arg_relay, ?ann_is_relay, ?walk_relay, ?target_walk_relay, ?gan_relay, ?dotted_attr_relay, ?is_dict_relay,
    ?iter_dict_relay, ?assigned_relay, ?resolve_relay, ?operand_relay, ?none_or_name_relay, ?union_relay, ?relaxed_relay,
    ?slice_ellipses_relay, ?map_length, ?const_text_relay.
  Ltac s1 :=
    lazymatch goal with
    | |- sim nop nop => apply sim_nop
    | |- sim (_ >> _) (_ >> _) => apply sim_seq
    | |- sim (when _ _) (when _ _) => apply sim_when; [rl; try reflexivity|intros ?C]
    | |- sim (rd _) (rd _) => apply sim_rd; [intros; reflexivity|intros ?s]
    | |- sim (scoped _) (scoped _) => apply sim_scoped
    | |- sim (with_res _ _) (with_res _ _) => apply sim_with_res; [rl; try reflexivity|intros ?r ?Er]
    | |- sim (unless_no_line _ _ _) (unless_no_line _ _ _) => apply lay_no_line; [try assumption|]
    | |- sim (each _ (map (relay f) ?l)) _ => fail
    | |- sim (each _ _) (each _ (map (relay f) _)) => apply sim_each_map; intros ?x ?I
    | |- sim (each _ ?l) (each _ ?l) => apply sim_each; intros ?x ?I
    | |- sim (set_flag _) (set_flag _) => apply sim_flag
    | |- sim (add_lc _ _ _) (add_lc _ _ _) => apply sim_lc
    | |- sim (add_lc_val _ _) (add_lc_val _ _) => apply sim_lc_val
    | |- sim (verbose_print_v _ _ _ _ _ _ _) _ => apply lay_print
    | |- sim (vv _ _ _) _ => apply lay_print
    | |- sim (vv_pl _ _ _ _) _ => apply lay_print
    | |- sim (vvl _ _ _ _) _ => apply lay_print
    | |- sim (vvl_pl _ _ _ _) _ => apply lay_print
    | |- sim (vv_msg _ _) _ => apply lay_print
    | |- sim (vvl_msg _ _ _) _ => apply lay_print
    | |- sim (vvv _ _ _) _ => apply lay_print
    | |- sim (vvvv _ _) _ => apply lay_print
    | |- sim (upd _) (upd _) => apply sim_upd_eq; intros; rl; try reflexivity
    | |- sim (if ?b then _ else _) (if ?b then _ else _) => destruct b eqn:?
    | |- sim (match ?x with _ => _ end) (match ?x with _ => _ end) => destruct x eqn:?
    | |- sim (fail _) (fail _) => intros ? ? ?; reflexivity
    end.
  Ltac ss := repeat (rl; s1).

  Lemma lay_add_module m l k l' k' : sim (add_module e m l k) (add_module e' m l' k').
  Proof. unfold add_module. ss. Qed.
  Lemma lay_add_member m l k l' k' : sim (add_member e m l k) (add_member e' m l' k').
  Proof. unfold add_member. ss. Qed.
  Lemma lay_add_kwargs g k l l' : sim (add_kwargs e g k l) (add_kwargs e' g k l').
  Proof. unfold add_kwargs. ss. Qed.
  Lemma lay_deco x l l' : sim (add_user_func_deco e x l) (add_user_func_deco e' x l').
  Proof. unfold add_user_func_deco. ss. Qed.
  Definition plain_args (l : list pyval) : Prop := forall a k, In a l -> const_val a = Some k -> R k = k.
  Definition plain_values (l : list pyval) : Prop := forall a k, In a l -> const_val (attr "value" a) = Some k -> R k = k.
  Lemma lay_ceh v l l' : sim (add_ceh e v l) (add_ceh e' v l').
  Proof. unfold add_ceh. ss. Qed.
  Lemma lay_cenc v l l' : sim (add_cenc e v l) (add_cenc e' v l').
  Proof. unfold add_cenc. ss. Qed.
  Lemma lay_codecs g a w l l' : plain_args a -> plain_values w ->
    sim (check_codecs_function e g a w l) (check_codecs_function e' g (map R a) (map R w) l').
  Proof.
    intros Pa Pw. unfold check_codecs_function. apply sim_seq.
    - unfold add_codecs_error_handler. destruct (assoc g codecs_errors_indices) as [i|]; [|apply sim_nop]. apply sim_seq.
      + rewrite nth_error_map. destruct (nth_error a i) as [x|] eqn:E; [|apply sim_nop]. cbn [option_map].
        unfold when_const. rewrite const_val_relay. destruct (const_val x) as [k|] eqn:K; [|apply sim_nop]. cbn [option_map].
        rewrite (Pa x k (nth_error_In _ _ E) K). apply lay_ceh.
      + apply sim_each_map. intros x I. ss. unfold when_const. rewrite const_val_relay.
        destruct (const_val (attr "value" x)) as [k|] eqn:K; [|apply sim_nop]. cbn [option_map]. rewrite (Pw x k I K). apply lay_ceh.
    - unfold add_codecs_encoding. destruct (assoc g codecs_encodings_indices) as [is|]; [|apply sim_nop].
      apply sim_each. intros i _.
      assert (Q : sim (each (fun kw => when (kw_arg_in codecs_encodings_kwargs kw) (when_const (attr "value" kw) (fun v => add_cenc e v l))) w)
                      (each (fun kw => when (kw_arg_in codecs_encodings_kwargs kw) (when_const (attr "value" kw) (fun v => add_cenc e' v l'))) (map R w))).
      { apply sim_each_map. intros x I. ss. unfold when_const. rewrite const_val_relay.
        destruct (const_val (attr "value" x)) as [k|] eqn:K; [|apply sim_nop]. cbn [option_map]. rewrite (Pw x k I K). apply lay_cenc. }
      rewrite nth_error_map. destruct (nth_error a i) as [x|] eqn:E; [|exact Q]. cbn [option_map]. rewrite const_val_relay.
      destruct (const_val x) as [k|] eqn:K; [|exact Q]. cbn [option_map]. rewrite (Pa x k (nth_error_In _ _ E) K).
      apply sim_seq; [apply lay_cenc|]. apply sim_when; [reflexivity|intros _; exact Q].
  Qed.
  Lemma lay_typecodes a l k l' k' : sim (add_typecodes a l k) (add_typecodes (map R a) l' k').
  Proof. unfold add_typecodes, add_array_typecode. ss. Qed.
  Lemma lay_user_def_node w : sim (add_user_def_node w) (add_user_def_node (R w)).
  Proof.
    destruct w as [| | | | | | | | |k u p fs]; try apply sim_nop; try (cbn; unfold add_user_def; ss; fail).
  Qed.
  Lemma lay_target_defs w : sim (add_target_defs w) (add_target_defs (R w)).
  Proof. unfold add_target_defs. ss. apply lay_user_def_node. Qed.
  Lemma lay_assign t w : sim (add_name_res_assign t w) (add_name_res_assign (map R t) (R w)).
  Proof. unfold add_name_res_assign, add_name_res, add_name_res_type. ss. Qed.
  Lemma lay_names w : sim (add_names_as_members e w) (add_names_as_members e' (R w)).
  Proof. unfold add_names_as_members. ss. apply lay_add_member. Qed.
  Lemma lay_arg_def w : sim (add_arg_def w) (add_arg_def (R w)).
  Proof. unfold add_arg_def. ss. apply lay_user_def_node. Qed.

  Lemma lay_generic w w' ks ks' : sim (visit_fields ks) (visit_fields ks') -> sim (generic_visit e w ks) (generic_visit e' w' ks').
  Proof.
    intros F. unfold generic_visit. apply sim_seq; [apply sim_position|]. apply sim_seq; [s1|].
    apply sim_seq; [apply sim_dump|]. apply sim_seq; [exact F|s1].
  Qed.

  Section Node.
    Variables (k : kind) (u : N) (pos : option (Z * Z)) (fs : list (string * pyval)) (ks ks' : list (string * ksem)).
    Hypothesis HF : sim (visit_fields ks) (visit_fields ks').
    Hypothesis HD : sim (visit_fields (drop_returns ks)) (visit_fields (drop_returns ks')).
    Hypothesis HT : sim (each k_visit (k_list (kid "finalbody" ks))) (each k_visit (k_list (kid "finalbody" ks'))).
    Hypothesis HG : sim (each k_gvisit (k_list (kid "body" ks))) (each k_gvisit (k_list (kid "body" ks'))).
    Hypothesis HN : is_no_line e' (pos_line (f u pos)) = is_no_line e (pos_line pos).
    Hypothesis HDeco : forall x, In x (flist "decorator_list" fs) -> is_no_line e' (lineno (R x)) = is_no_line e (lineno x).
    Hypothesis HX : k = KExceptHandler ->
      is_except_star e' (pos_line (f u pos)) (pos_col (f u pos)) = is_except_star e (pos_line pos) (pos_col pos).
    Hypothesis HW : k = KWith \/ k = KAsyncWith -> has_with_paren e' (pos_line (f u pos)) = has_with_paren e (pos_line pos).
    Hypothesis HPa : plain_args (flist "args" fs).
    Hypothesis HPk : plain_values (flist "keywords" fs).
    Notation v := (VNode k u pos fs).
    Notation v' := (VNode k u (f u pos) (Rs fs)).

    Lemma lay_generic_here w w' : sim (generic_visit e w ks) (generic_visit e' w' ks').
    Proof. apply lay_generic, HF. Qed.
    Lemma lay_generic_drop w w' : sim (generic_visit e w (drop_returns ks)) (generic_visit e' w' (drop_returns ks')).
    Proof. apply lay_generic, HD. Qed.

    Lemma lay_annotations line line' l : sim (arg_annotations e line l) (arg_annotations e' line' (map R l)).
    Proof. induction l as [|a l IH]; cbn [arg_annotations map]; ss; exact IH. Qed.

    Lemma lay_first_deco : match first_deco_line e (flist "decorator_list" fs), first_deco_line e' (map R (flist "decorator_list" fs)) with
      | None, None => True | Some _, Some _ => True | _, _ => False end.
    Proof.
      unfold first_deco_line. revert HDeco. induction (flist "decorator_list" fs) as [|x l IH]; intros H; cbn [map find]; [exact I|].
      rewrite (H x (or_introl eq_refl)). destruct (negb _); auto. apply IH. intros y I. apply H. right. exact I.
    Qed.

    Lemma lay_strftime l l' x : sim (strftime_arg l x) (strftime_arg l' (R x)).
    Proof.
      unfold strftime_arg, when_const. rewrite const_val_relay. destruct (const_val x) as [y|]; [|apply sim_nop]. cbn [option_map].
      destruct y; cbn [relay]; try (intros ? ? ?; reflexivity). unfold add_strftime_directive. ss.
    Qed.

    Lemma lay_pow (l : list pyval) :
      sim (match l with
           | [a; b; c] => when (is_int_node a && is_neg_int_node b && is_int_node c)
                      (set_flag FModInversePow >> vv e "modular inverse pow()" (None, Some (3, 8)))
           | _ => nop end)
          (match map R l with
           | [a; b; c] => when (is_int_node a && is_neg_int_node b && is_int_node c)
                      (set_flag FModInversePow >> vv e' "modular inverse pow()" (None, Some (3, 8)))
           | _ => nop end).
    Proof. destruct l as [|a [|b [|g [|h l]]]]; cbn [map]; ss. Qed.

    Lemma lay_call_name g l l' cc cc' : sim (call_name e g l cc (flist "args" fs) (flist "keywords" fs))
       (call_name e' g l' cc' (map R (flist "args" fs)) (map R (flist "keywords" fs))).
    Proof.
      unfold call_name, push_fn. ss; try apply lay_add_member; try (apply lay_codecs; assumption); try apply lay_typecodes.
      apply lay_pow.
    Qed.
    Lemma lay_call_attribute g l l' cc cc' : sim (call_attribute e g l cc (flist "args" fs) (flist "keywords" fs))
       (call_attribute e' (R g) l' cc' (map R (flist "args" fs)) (map R (flist "keywords" fs))).
    Proof.
      unfold call_attribute, push_fn. ss; try apply lay_strftime; try (apply lay_codecs; assumption); try apply lay_typecodes.
    Qed.

    Lemma lay_call w w' : sim (visit_call e w pos fs ks) (visit_call e' w' (f u pos) (Rs fs) ks').
    Proof.
      unfold visit_call. apply lay_no_line; [exact HN|]. rl. apply sim_seq; [|apply sim_seq; [|apply sim_seq; [apply lay_generic_here|]]].
      - destruct (fld "func" fs) as [| | | | | | | | |fk fu fp ffs] eqn:E; try apply sim_nop. cbn [relay]. destruct fk; try apply sim_nop.
        + exact (lay_call_attribute (VNode KAttribute fu fp ffs) _ _ _ _).
        + rl. apply lay_call_name.
      - unfold check_gen_unp_call, gen_unpacking. rewrite (gen_unp_relay f is_valid_star_unpack) by apply star_relay.
        rewrite (gen_unp_relay f is_kw_unpack) by apply kw_unpack_relay. ss.
      - unfold pop_fn. ss.
    Qed.

    Lemma lay_keyword w w' : sim (visit_keyword e w fs ks) (visit_keyword e' w' (Rs fs) ks').
    Proof.
      intros s s' L. unfold visit_keyword, rd. rl.
      assert (Q : forall g, sim (each (fun func => add_kwargs e (kw_function s func) (as_ostr (fld "arg" fs)) (s_line s)) g)
                                (each (fun func => add_kwargs e' (kw_function s' func) (as_ostr (fld "arg" fs)) (s_line s')) g)).
      { intros g. apply sim_each. intros x _. destruct L as (o & l & z & ->). apply lay_add_kwargs. }
      assert (Fn : s_fns s' = s_fns s) by (destruct L as (o & l & z & ->); reflexivity). rewrite Fn.
      refine (sim_seq _ _ _ _ (Q _) _ s s' L). apply sim_when; [|intros _; apply lay_generic_here].
      destruct L as (o & l & z & ->). reflexivity.
    Qed.

    Lemma lay_relaxed : sim (check_relaxed_decorators e (flist "decorator_list" fs))
                            (check_relaxed_decorators e' (map R (flist "decorator_list" fs))).
    Proof. unfold check_relaxed_decorators. apply sim_each_map. intros x I. apply lay_no_line; [apply HDeco, I|]. ss. Qed.
    Lemma lay_user_decos : sim (check_user_func_decorators e (flist "decorator_list" fs))
                               (check_user_func_decorators e' (map R (flist "decorator_list" fs))).
    Proof. unfold check_user_func_decorators. apply sim_each_map. intros x I. apply lay_no_line; [apply HDeco, I|]. ss. apply lay_deco. Qed.

    Ltac leaf :=
      first
      [ apply lay_generic_here | apply lay_generic_drop | apply lay_add_module | apply lay_add_member | apply lay_typecodes
      | apply lay_target_defs | apply lay_user_def_node | apply lay_assign | apply lay_deco | apply lay_annotations | apply lay_names
      | apply lay_arg_def | apply lay_keyword | apply lay_call | exact HT | exact HG | apply lay_relaxed | apply lay_user_decos ].

    Lemma lay_functiondef w w' (Ew : lineno w = pos_line pos) : sim (handle_functiondef e w fs ks) (handle_functiondef e' w' (Rs fs) ks').
    Proof.
      unfold handle_functiondef, add_user_def. rl. pose proof lay_first_deco as FD.
      apply sim_seq; [ss|]. apply sim_seq; [ss|]. apply sim_seq.
      - destruct (first_deco_line e _), (first_deco_line e' _); try contradiction; [|apply sim_nop]. ss; leaf.
      - ss; leaf.
    Qed.

    Lemma lay_binding (l : list pyval) g : sim (each (fun x => add_target_defs (attr g x)) l) (each (fun x => add_target_defs (attr g x)) (map R l)).
    Proof. apply sim_each_map. intros x _. rl. apply lay_target_defs. Qed.
    Lemma lay_with w w' : has_with_paren e' (lineno w') = has_with_paren e (lineno w) -> sim (handle_with e w fs ks) (handle_with e' w' (Rs fs) ks').
    Proof.
      intros W. unfold handle_with. apply sim_scoped. rl. apply sim_seq; [apply lay_binding|]. rewrite W. ss. leaf.
    Qed.
    Lemma lay_attr_module full l l' m : sim (attr_module e full l m) (attr_module e' full l' m).
    Proof. unfold attr_module. ss; leaf. Qed.
    Lemma lay_attribute p' gs : sim (visit_attribute e (VNode KAttribute u p' gs) ks) (visit_attribute e' (VNode KAttribute u (f u p') (Rs gs)) ks').
    Proof.
      unfold visit_attribute. change (VNode KAttribute u (f u p') (Rs gs)) with (R (VNode KAttribute u p' gs)).
      apply sim_seq; [|leaf]. apply sim_rd; [intros; reflexivity|]. intros s. apply sim_with_res; [rl; reflexivity|]. intros full _.
      apply sim_when; [reflexivity|]. intros _. apply sim_seq; [|apply sim_seq; [|apply sim_seq; [leaf|]]].
      - apply sim_each. intros. apply lay_attr_module.
      - apply sim_rd; [intros; reflexivity|]. intros s1. apply sim_each. intros. apply lay_attr_module.
      - unfold attr_resolve. ss; leaf.
    Qed.
    Lemma lay_for w w' : is_no_line e' (lineno w') = is_no_line e (lineno w) -> sim (handle_for e w fs ks) (handle_for e' w' (Rs fs) ks').
    Proof.
      intros N. unfold handle_for. apply lay_no_line; [exact N|]. rl. ss; try leaf. unfold add_name_res. ss.
    Qed.
    Lemma lay_seq w w' : sim (visit_seq e w fs ks) (visit_seq e' w' (Rs fs) ks').
    Proof.
      unfold visit_seq, check_gen_unp_seq, gen_unpacking. rl. rewrite existsb_relay by apply star_relay. ss. leaf.
    Qed.
    Lemma lay_comp w w' : sim (comp_scope e w fs ks) (comp_scope e' w' (Rs fs) ks').
    Proof. unfold comp_scope. rl. ss; rl; leaf. Qed.
    Lemma lay_class w w' : is_no_line e' (lineno w') = is_no_line e (lineno w) -> sim (visit_classdef e w fs ks) (visit_classdef e' w' (Rs fs) ks').
    Proof.
      intros N. unfold visit_classdef, add_user_def, add_name_res_type. apply lay_no_line; [exact N|]. rl. pose proof lay_first_deco as FD.
      apply sim_seq; [ss|]. apply sim_seq; [ss|]. apply sim_seq.
      - destruct (first_deco_line e _), (first_deco_line e' _); try contradiction; [|apply sim_nop]. ss; leaf.
      - ss; leaf.
    Qed.
    Lemma lay_constant : sim (visit_constant e u pos fs) (visit_constant e' u (f u pos) (Rs fs)).
    Proof. unfold visit_constant, visit_ellipsis, add_bytes_directive. rl. destruct (fld "value" fs); cbn [relay]; ss. Qed.
    Lemma lay_import_from : sim (visit_import_from e pos fs) (visit_import_from e' (f u pos) (Rs fs)).
    Proof.
      unfold visit_import_from, add_user_def. rl. destruct (fld "module" fs); cbn [relay]; try apply sim_nop.
      assert (L : match R (fld "level" fs) with VInt n => 0 <? n | _ => false end = match fld "level" fs with VInt n => 0 <? n | _ => false end)
        by (destruct (fld "level" fs); reflexivity).
      rewrite L. destruct (match fld "level" fs with VInt n => 0 <? n | _ => false end); [apply sim_nop|]. apply lay_no_line; [exact HN|]. ss; rl; leaf.
    Qed.
    Lemma lay_arguments w w' : sim (visit_arguments e w fs ks) (visit_arguments e' w' (Rs fs) ks').
    Proof.
      unfold visit_arguments. rl. apply sim_seq; [ss|]. apply sim_seq; [ss|]. apply sim_seq; [|leaf].
      change [R (fld "vararg" fs); R (fld "kwarg" fs)] with (map R [fld "vararg" fs; fld "kwarg" fs]). rewrite <- !map_app.
      apply sim_each_map. intros. leaf.
    Qed.
    Lemma lay_subscript w w' : is_no_line e' (lineno w') = is_no_line e (lineno w) -> sim (visit_subscript e w fs ks) (visit_subscript e' w' (Rs fs) ks').
    Proof.
      intros N. unfold visit_subscript. apply lay_no_line; [exact N|]. rl. apply sim_seq; [|apply sim_seq; [|leaf]].
      - unfold check_builtin_generic, generic_match. ss.
      - ss.
    Qed.
    Lemma lay_joined : sim (visit_joinedstr e (VNode KJoinedStr u pos fs) ks) (visit_joinedstr e' (VNode KJoinedStr u (f u pos) (Rs fs)) ks').
    Proof.
      unfold visit_joinedstr. change (VNode KJoinedStr u (f u pos) (Rs fs)) with (R (VNode KJoinedStr u pos fs)).
      ss; try leaf. cbn [e_selfdoc]. symmetry. apply Sd.
    Qed.
    Lemma lay_comprehension w w' : sim (visit_comprehension e w fs ks) (visit_comprehension e' w' (Rs fs) ks').
    Proof.
      unfold visit_comprehension. rl.
      assert (L : match R (fld "is_async" fs) with VInt n => n =? 1 | _ => false end = match fld "is_async" fs with VInt n => n =? 1 | _ => false end)
        by (destruct (fld "is_async" fs); reflexivity).
      rewrite L. ss. leaf.
    Qed.
    Lemma lay_except w w' : is_no_line e' (lineno w') = is_no_line e (lineno w) ->
      is_except_star e' (lineno w') (col_offset w') = is_except_star e (lineno w) (col_offset w) ->
      sim (visit_excepthandler e w fs ks) (visit_excepthandler e' w' (Rs fs) ks').
    Proof. intros N X. unfold visit_excepthandler. apply lay_no_line; [exact N|]. rewrite X. rl. ss; leaf. Qed.
    Lemma lay_import : sim (visit_import e pos fs) (visit_import e' (f u pos) (Rs fs)).
    Proof. unfold visit_import, add_user_def. rl. apply lay_no_line; [exact HN|]. ss; rl; leaf. Qed.

    Lemma lay_handler : sim (handler e k u pos fs ks) (handler e' k u (f u pos) (Rs fs) ks').
    Proof.
      destruct k eqn:Ek; cbn [handler]; try apply sim_nop; try apply lay_generic_here; try leaf.
      all: unfold visit_name, visit_binop, visit_assign, visit_augassign, visit_annassign, visit_functiondef,
        visit_asyncfunctiondef, visit_await, visit_namedexpr, visit_nonlocal, visit_yieldfrom, visit_match, visit_typealias,
        visit_yield, visit_raise, visit_setcomp, visit_dictcomp, visit_matmult, visit_continue,
        visit_with, visit_asyncwith, visit_dict, visit_set, visit_cond, visit_asyncfor,
        visit_while, visit_try, visit_starred, check_gen_unp_dict, gen_unpacking, add_user_def.
      all: rl; rewrite ?combine_relay; ss; try (rl; leaf).
      all: first
        [ apply lay_attribute | apply lay_for; exact HN | apply lay_seq | apply lay_comp | apply lay_class; exact HN | apply lay_constant
        | apply lay_import_from | apply lay_import | apply lay_arguments | apply lay_subscript; exact HN | apply lay_joined | apply lay_comprehension
        | apply lay_except; [exact HN|apply HX; reflexivity] | apply lay_functiondef; reflexivity
        | apply lay_with; apply HW; (left; reflexivity) || (right; reflexivity) ].
    Qed.
  End Node.

  (** ** Whole trees *)
  Definition lay_alike (v v' : pyval) : Prop :=
    sim (k_visit (sem e v)) (k_visit (sem e' v')) /\ sim (k_gvisit (sem e v)) (k_gvisit (sem e' v')) /\
    sim (visit_field (sem e v)) (visit_field (sem e' v')) /\
    sim (each k_visit (k_list (sem e v))) (each k_visit (k_list (sem e' v'))) /\
    sim (each k_gvisit (k_list (sem e v))) (each k_gvisit (k_list (sem e' v'))).
  Definition lay_kids (g : env) (fs : list (string * pyval)) : list (string * ksem) := map (fun fx => (fst fx, sem g (snd fx))) fs.

  Lemma role_line n n' : same_role e e' n n' -> is_no_line e' (lineno n') = is_no_line e (lineno n).
  Proof.
    intros [C _ _]. unfold counted in C. destruct (is_no_line e (lineno n)) eqn:A, (is_no_line e' (lineno n')) eqn:B; auto; exfalso.
    - apply no_line_iff in A. apply Bool.not_true_iff_false in B. rewrite no_line_iff in B. apply C in B. auto.
    - apply no_line_iff in B. apply Bool.not_true_iff_false in A. rewrite no_line_iff in A. apply C in A. auto.
  Qed.
  Lemma role_star n n' : same_role e e' n n' -> isa KExceptHandler n ->
    is_except_star e' (lineno n') (col_offset n') = is_except_star e (lineno n) (col_offset n).
  Proof.
    intros [_ C _] K. specialize (C K). destruct (is_except_star e (lineno n) (col_offset n)) eqn:A.
    - apply Proof_Forms.text_except_star, C, Proof_Shapes.except_star_text, A.
    - apply Bool.not_true_iff_false. intros B. apply Bool.not_true_iff_false in A. apply A.
      apply Proof_Forms.text_except_star, C, Proof_Shapes.except_star_text, B.
  Qed.
  Lemma role_with n n' : same_role e e' n n' -> with_stmt n -> has_with_paren e' (lineno n') = has_with_paren e (lineno n).
  Proof.
    intros [_ _ C] K. destruct (C K) as [[A B]|[A B]].
    - rewrite !Proof_Sight.near_found by assumption. reflexivity.
    - destruct (has_with_paren e (lineno n)) eqn:E; [destruct A; apply Proof_Shapes.with_paren_text, E|].
      apply Bool.not_true_iff_false. intros E'. apply B, Proof_Shapes.with_paren_text, E'.
  Qed.

  Lemma lay_tree v : relaid e e' f v -> lay_alike v (R v).
  Proof.
    induction v as [ |b|z|s|s|s|s| |l IH|k u p fs IH] using pyval_rect'; intros H;
      try (split; [apply sim_nop|split; [apply sim_nop|split; [apply sim_nop|split; apply sim_nop]]]; fail).
    - assert (L : sim (each k_visit (map (sem e) l)) (each k_visit (map (sem e') (map R l))) /\
                  sim (each k_gvisit (map (sem e) l)) (each k_gvisit (map (sem e') (map R l)))).
      { assert (Q : forall x, In x l -> relaid e e' f x) by (intros x I n B; apply H; eapply below_item; eauto).
        clear H. induction IH as [|x r X _ IHr]; [split; apply sim_nop|].
        destruct (X (Q x (or_introl eq_refl))) as (X1 & X2 & _). destruct IHr as [IH1 IH2]; [intros y I; apply Q; right; exact I|].
        split; [exact (sim_seq _ _ _ _ X1 IH1)|exact (sim_seq _ _ _ _ X2 IH2)]. }
      destruct L as [L1 L2]. split; [apply sim_nop|]. split; [apply sim_nop|]. split; [exact L1|]. split; [exact L1|exact L2].
    - assert (Q : Forall (fun fx => lay_alike (snd fx) (R (snd fx))) fs).
      { apply Forall_forall. intros [g x] I. apply (proj1 (Forall_forall _ _) IH _ I). intros n B. apply H. eapply below_field; eauto. }
      assert (A1 : sim (visit_fields (lay_kids e fs)) (visit_fields (lay_kids e' (Rs fs)))).
      { unfold visit_fields, lay_kids. clear IH H. induction Q as [|[g x] r X _ IHr]; [apply sim_nop|].
        destruct X as (_ & _ & X & _). exact (sim_seq _ _ _ _ X IHr). }
      assert (A2 : sim (visit_fields (drop_returns (lay_kids e fs))) (visit_fields (drop_returns (lay_kids e' (Rs fs))))).
      { unfold visit_fields, lay_kids, drop_returns. clear IH H A1. induction Q as [|[g x] r X _ IHr]; [apply sim_nop|].
        destruct X as (_ & _ & X & _). cbn [map each fst snd]. cbn [snd] in X. destruct (String.eqb g "returns").
        - exact (sim_seq _ _ _ _ sim_nop IHr).
        - exact (sim_seq _ _ _ _ X IHr). }
      assert (A3 : forall g, sim (each k_visit (k_list (kid g (lay_kids e fs)))) (each k_visit (k_list (kid g (lay_kids e' (Rs fs)))))
                          /\ sim (each k_gvisit (k_list (kid g (lay_kids e fs)))) (each k_gvisit (k_list (kid g (lay_kids e' (Rs fs)))))).
      { intros g. unfold kid, lay_kids. clear IH H A1 A2. induction Q as [|[h x] r X _ IHr]; [split; apply sim_nop|].
        destruct X as (_ & _ & _ & X & Y). cbn [map fst snd assoc]. destruct (String.eqb g h); [split; assumption|exact IHr]. }
      assert (Here : same_role e e' (VNode k u p fs) (VNode k u (f u p) (Rs fs))) by (apply (H (VNode k u p fs)), below_here; reflexivity).
      assert (S : sim (k_visit (sem e (VNode k u p fs))) (k_visit (sem e' (R (VNode k u p fs))))).
      { cbn [sem relay k_visit]. apply lay_handler; try assumption.
        - exact (proj1 (A3 "finalbody")).
        - exact (proj2 (A3 "body")).
        - exact (role_line _ _ Here).
        - intros x I. apply role_line. apply (H x). eapply below_flist; eauto. apply (proj2 (proj2 (H (VNode k u p fs) (below_here (VNode k u p fs) eq_refl)))), I.
        - intros ->. exact (role_star _ _ Here eq_refl).
        - intros K. apply (role_with _ _ Here). destruct K as [-> | ->]; [left|right]; reflexivity.
        - intros a c0 I C. apply (plain_same f a); [|exact C]. apply (fun X => proj1 (proj2 (H a X))). eapply below_flist; eauto. destruct a; try discriminate. reflexivity.
        - intros a c0 I C. apply (plain_same f (attr "value" a)); [|exact C]. apply (fun X => proj1 (proj2 (H _ X))).
          apply (Proof_Shapes.below_trans _ a); [apply below_attr; destruct (attr "value" a); try discriminate; reflexivity|].
          eapply below_flist; eauto. destruct a; try discriminate. reflexivity. }
      split; [exact S|]. split; [cbn [sem relay k_gvisit]; apply lay_generic, A1|]. split; [exact S|]. split; exact sim_nop.
  Qed.

  Lemma tour_relaid v : relaid e e' f v -> simr (tour e v) (tour e' (R v)).
  Proof.
    intros H. destruct (lay_tree _ H) as (A & _). unfold tour.
    assert (S : sim (visit e v >> after_visit_all e) (visit e' (R v) >> after_visit_all e')); [|apply S, like_refl].
    apply sim_seq; [exact A|]. unfold after_visit_all, drop_user_def. ss.
  Qed.
End Lay.
