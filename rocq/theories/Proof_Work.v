(** How many nodes are visited. Lemmas for C78. *)
From Verif Require Import PyBase PyLemmas Utility RulesData Rules Config Formats Paths AstKinds Ast State Visitor
  Spec_Base Spec_Visitor Spec_Work Proof_Shapes Proof_Runs.
From Verif Require Proof_Tour.

Definition adds (n : nat) (a : act) : Prop := forall s s', a s = Ok s' -> (dumped s' <= dumped s + n)%nat.
Definition mute (a : act) : Prop := forall s s', a s = Ok s' -> s_out s' = s_out s.

Lemma mute_seq a b : mute a -> mute b -> mute (a >> b).
Proof. intros A B s s' E. destruct (seq_ok _ _ _ _ E) as (s1 & E1 & E2). rewrite (B _ _ E2). exact (A _ _ E1). Qed.
Lemma mute_nop : mute nop.
Proof. intros s s' E. injection E as <-. reflexivity. Qed.
Lemma mute_when b a : mute a -> mute (when b a).
Proof. destruct b; [auto|]. intros _. apply mute_nop. Qed.
Lemma mute_rd f : (forall s, mute (f s)) -> mute (rd f).
Proof. intros F s s' E. exact (F s s s' E). Qed.
Lemma mute_with_res {A} (m : res A) f : (forall a, mute (f a)) -> mute (with_res m f).
Proof. intros F. destruct m; [apply F|]. intros s s' E. discriminate. Qed.
Lemma mute_each {A} (f : A -> act) l : (forall x, mute (f x)) -> mute (each f l).
Proof. intros F. induction l; [apply mute_nop|]. cbn [each]. apply mute_seq; auto. Qed.
Lemma mute_scoped a : mute a -> mute (scoped a).
Proof. intros A s s' E. unfold scoped in E. destruct (a s) eqn:Q; [|discriminate]. injection E as <-. exact (A _ _ Q). Qed.
Lemma mute_no_line e l a : mute a -> mute (unless_no_line e l a).
Proof. unfold unless_no_line. destruct (is_no_line e l); [intros _; apply mute_nop|auto]. Qed.
Lemma mute_flag f : mute (set_flag f).
Proof. intros s s' E. unfold set_flag, upd in E. injection E as <-. destruct (existsb _ _); reflexivity. Qed.
Lemma mute_upd f : (forall s, s_out (f s) = s_out s) -> mute (upd f).
Proof. intros F s s' E. injection E as <-. apply F. Qed.

Lemma mute_fail x : mute (fail x).
Proof. intros s s' E. discriminate. Qed.

Lemma adds_mute n a : mute a -> adds n a.
Proof. intros M s s' E. unfold dumped. rewrite (M _ _ E). lia. Qed.
Lemma adds_seq n m a b : adds n a -> adds m b -> adds (n + m) (a >> b).
Proof. intros A B s s' E. destruct (seq_ok _ _ _ _ E) as (s1 & E1 & E2). specialize (A _ _ E1). specialize (B _ _ E2). lia. Qed.
Lemma adds_before n a b : mute a -> adds n b -> adds n (a >> b).
Proof. intros A B. exact (adds_seq 0 n a b (adds_mute 0 a A) B). Qed.
Lemma adds_behind n a b : adds n a -> mute b -> adds n (a >> b).
Proof. intros A B. rewrite <- (Nat.add_0_r n). exact (adds_seq n 0 a b A (adds_mute 0 b B)). Qed.
Lemma adds_le n m a : adds n a -> (n <= m)%nat -> adds m a.
Proof. intros A L s s' E. specialize (A _ _ E). lia. Qed.
Lemma adds_nop n : adds n nop.
Proof. apply adds_mute, mute_nop. Qed.
Lemma adds_when n b a : adds n a -> adds n (when b a).
Proof. destruct b; [auto|]. intros _. apply adds_nop. Qed.
Lemma adds_rd n f : (forall s, adds n (f s)) -> adds n (rd f).
Proof. intros F s s' E. exact (F s s s' E). Qed.
Lemma adds_with_res {A} n (m : res A) f : (forall a, adds n (f a)) -> adds n (with_res m f).
Proof. intros F. destruct m; [apply F|]. intros s s' E. discriminate. Qed.
Lemma adds_scoped n a : adds n a -> adds n (scoped a).
Proof. intros A s s' E. unfold scoped in E. destruct (a s) eqn:Q; [|discriminate]. injection E as <-. exact (A _ _ Q). Qed.
Lemma adds_no_line n e l a : adds n a -> adds n (unless_no_line e l a).
Proof. unfold unless_no_line. destruct (is_no_line e l); [intros _; apply adds_nop|auto]. Qed.
Lemma adds_each {A} (f : A -> act) (w : A -> nat) l : (forall x, In x l -> adds (w x) (f x)) -> adds (list_sum (map w l)) (each f l).
Proof.
  induction l as [|x r IH]; intros F; [apply adds_nop|]. cbn [each map list_sum fold_right].
  apply (adds_seq (w x) (list_sum (map w r))); [apply F; left; reflexivity|apply IH; intros y I; apply F; right; exact I].
Qed.

Section Work.
  Variable e : env.
  Hypothesis Quiet : c_verbose (e_cfg e) <= 0.

  Lemma mute_print lv m en li ve pl : 1 <= lv -> mute (verbose_print_v e lv m en li ve pl).
  Proof.
    intros L s s' E. unfold verbose_print_v in E. destruct (violates e ve) as [[]|]; [|injection E as <-; reflexivity|discriminate].
    assert (Q : (c_verbose (e_cfg e) <? lv) = true) by (apply Z.ltb_lt; lia). rewrite Q, orb_true_r in E. injection E as <-. reflexivity.
  Qed.

  Ltac prt := unfold vv, vv_pl, vvl, vvl_pl, vv_msg, vvl_msg, vvv, vvvv; apply mute_print; lia.
  Ltac m1 :=
    lazymatch goal with
    | |- mute nop => apply mute_nop
    | |- mute (fail _) => apply mute_fail
    | |- mute (_ >> _) => apply mute_seq
    | |- mute (when _ _) => apply mute_when
    | |- mute (rd _) => apply mute_rd; intros ?s
    | |- mute (scoped _) => apply mute_scoped
    | |- mute (with_res _ _) => apply mute_with_res; intros ?r
    | |- mute (unless_no_line _ _ _) => apply mute_no_line
    | |- mute (each _ _) => apply mute_each; intros ?x
    | |- mute (set_flag _) => apply mute_flag
    | |- mute (verbose_print_v _ _ _ _ _ _ _) => apply mute_print; lia
    | |- mute (vv _ _ _) => prt
    | |- mute (vv_pl _ _ _ _) => prt
    | |- mute (vvl _ _ _ _) => prt
    | |- mute (vvl_pl _ _ _ _) => prt
    | |- mute (vv_msg _ _) => prt
    | |- mute (vvl_msg _ _ _) => prt
    | |- mute (vvv _ _ _) => prt
    | |- mute (vvvv _ _) => prt
    | |- mute (upd _) => apply mute_upd; intros ?s; reflexivity
    | |- mute (if ?b then _ else _) => destruct b
    | |- mute (match ?x with _ => _ end) => destruct x
    | |- mute (let '(_, _) := ?x in _) => destruct x
    end.
  Lemma mute_annotations l args : mute (arg_annotations e l args).
  Proof. induction args as [|a r IH]; cbn [arg_annotations]; repeat m1; try exact IH. Qed.
  Ltac mm := repeat first [m1 | apply mute_annotations | progress unfold add_module, add_member, add_kwargs, add_user_func_deco, add_typecodes,
      add_lc_val, check_codecs_function, add_name_res_type, add_user_def_node, add_target_defs, add_name_res_assign, add_names_as_members,
      generic_match, add_user_def, add_name_res, add_lc, add_codecs_error_handler, add_codecs_encoding, when_const, add_ceh, add_cenc,
      add_array_typecode, attr_resolve, attr_module, visit_ellipsis, call_name, call_attribute, strftime_arg, add_strftime_directive,
      check_gen_unp_call, push_fn, pop_fn, add_bytes_directive, check_relaxed_decorators, check_user_func_decorators, check_gen_unp_seq,
      check_gen_unp_dict, gen_unpacking, check_builtin_generic, add_arg_def, drop_user_def].

  Section Node.
    Variables (k : kind) (u : N) (pos : option (Z * Z)) (fs : list (string * pyval)) (ks : list (string * ksem)) (n : nat).
    Let v := VNode k u pos fs.
    Hypothesis G : adds n (generic_visit e v ks).
    Hypothesis GD : adds n (generic_visit e (without_returns v) (drop_returns ks)).

    Ltac a1 :=
      lazymatch goal with
      | |- adds _ nop => apply adds_nop
      | |- adds _ (generic_visit _ _ _) => first [exact G | exact GD]
      | |- adds _ (_ >> _) => first [apply adds_before; [solve [mm]|] | apply adds_behind; [|solve [mm]] ]
      | |- adds _ (when _ _) => apply adds_when
      | |- adds _ (rd _) => apply adds_rd; intros ?s
      | |- adds _ (scoped _) => apply adds_scoped
      | |- adds _ (with_res _ _) => apply adds_with_res; intros ?r
      | |- adds _ (unless_no_line _ _ _) => apply adds_no_line
      | |- adds _ (if ?b then _ else _) => destruct b
      | |- adds _ _ => apply adds_mute; solve [mm]
      end.
    Lemma handler_adds : k <> KTry -> k <> KClassDef -> adds n (handler e k u pos fs ks).
    Proof.
      intros T C. unfold handler. fold v. destruct k; try (contradiction T; reflexivity); try (contradiction C; reflexivity); try exact G; try apply adds_nop;
      unfold visit_import, visit_import_from, visit_name, visit_attribute,
        visit_binop, visit_constant, visit_joinedstr, visit_keyword, visit_call, visit_assign, visit_augassign, visit_annassign,
        visit_functiondef, visit_asyncfunctiondef, handle_functiondef, visit_await, visit_namedexpr,
        visit_arguments, visit_nonlocal, visit_yieldfrom, visit_match, visit_typealias, visit_yield,
        visit_raise, visit_excepthandler, visit_setcomp, visit_dictcomp, comp_scope, visit_comprehension, visit_matmult,
        visit_continue, visit_with, visit_asyncwith, handle_with, visit_dict, visit_set, visit_seq, visit_subscript, visit_cond, visit_asyncfor,
        handle_for, visit_while, visit_starred; repeat a1.
    Qed.
  End Node.

  Definition plain (fs : list (string * pyval)) : nat := S (list_sum (map (fun fx => passes (snd fx)) fs)).
  Definition small (v : pyval) : Prop :=
    adds (passes v) (k_visit (sem e v)) /\ adds (passes v) (k_gvisit (sem e v)) /\ adds (passes v) (visit_field (sem e v)) /\
    adds (passes v) (each k_visit (k_list (sem e v))) /\ adds (passes v) (each k_gvisit (k_list (sem e v))).

  Lemma sum_le {A} (f g : A -> nat) l : (forall x, In x l -> (f x <= g x)%nat) -> (list_sum (map f l) <= list_sum (map g l))%nat.
  Proof.
    induction l as [|x r IH]; intros H; [reflexivity|]. cbn [map list_sum fold_right]. pose proof (H x (or_introl eq_refl)).
    assert (list_sum (map f r) <= list_sum (map g r))%nat by (apply IH; intros y I; apply H; right; exact I). unfold list_sum in *. lia.
  Qed.
  Lemma plain_passes k u p fs : (plain fs <= passes (VNode k u p fs))%nat.
  Proof.
    unfold plain. cbn [passes]. apply le_n_S, sum_le. intros x _. cbn beta. destruct (twice k (fst x)); lia.
  Qed.
  Lemma twice_passes k u p fs f x : twice k f = true -> assoc f fs = Some x -> (passes x + plain fs <= passes (VNode k u p fs))%nat.
  Proof.
    intros T A. unfold plain. cbn [passes]. rewrite Nat.add_succ_r. apply le_n_S. revert A.
    induction fs as [|[g y] r IH]; cbn [assoc]; [discriminate|]. cbn [map fst snd]. change (list_sum (?a :: ?l)) with (a + list_sum l)%nat.
    destruct (String.eqb f g) eqn:E.
    - intros [= ->]. apply String.eqb_eq in E as <-. rewrite T.
      pose proof (sum_le (fun fx => passes (snd fx)) (fun fx => if twice k (fst fx) then (passes (snd fx) + passes (snd fx))%nat else passes (snd fx)) r
        ltac:(intros z _; cbn beta; destruct (twice k (fst z)); lia)). lia.
    - intros A. specialize (IH A). destruct (twice k g); lia.
  Qed.

  Lemma generic_any v ks ws : Forall2 (fun (fk : string * ksem) w => adds w (visit_field (snd fk))) ks ws ->
    adds (S (list_sum ws)) (generic_visit e v ks).
  Proof.
    intros F. unfold generic_visit. change (S ?x) with (1 + x)%nat.
    assert (M : mute (match pos_of v with Some (l, _) => upd (u_line l) | None => nop end)) by mm.
    assert (A : adds 1 (when (c_print_visits (e_cfg e) && negb (c_quiet (e_cfg e)))
      (upd (fun s => u_out (s_out s ++ [srepeat "| " (Z.to_nat (s_depth s)) +++ e_dump e v]) s)))).
    { apply adds_when. intros s s' E. injection E as <-. unfold dumped. cbn [s_out u_out]. rewrite app_length. cbn. lia. }
    assert (B : adds (list_sum ws) (visit_fields ks)).
    { unfold visit_fields. induction F as [|[f x] w r ws' P F IH]; [apply adds_nop|]. cbn [each].
      change (list_sum (?a :: ?l)) with (a + list_sum l)%nat. apply adds_seq; [exact P|exact IH]. }
    change (adds (1 + list_sum ws) (match pos_of v with Some (l, _) => upd (u_line l) | None => nop end >>
      (upd (fun s => u_depth (s_depth s + 1) s) >> ((when (c_print_visits (e_cfg e) && negb (c_quiet (e_cfg e)))
      (upd (fun s => u_out (s_out s ++ [srepeat "| " (Z.to_nat (s_depth s)) +++ e_dump e v]) s))) >> (visit_fields ks >> upd (fun s => u_depth (s_depth s - 1) s)))))).
    apply adds_before; [exact M|]. apply adds_before; [mm|]. apply adds_seq; [exact A|]. apply adds_behind; [exact B|mm].
  Qed.
  Lemma generic_adds v fs : Forall (fun fx => small (snd fx)) fs ->
    adds (plain fs) (generic_visit e v (map (fun fx => (fst fx, sem e (snd fx))) fs)).
  Proof.
    intros F. unfold plain. apply generic_any. induction F as [|x r (_ & _ & P & _) F IH]; constructor; [exact P|exact IH].
  Qed.
  Lemma dropped_adds v fs : Forall (fun fx => small (snd fx)) fs ->
    adds (plain fs) (generic_visit e v (drop_returns (map (fun fx => (fst fx, sem e (snd fx))) fs))).
  Proof.
    intros F. unfold plain. apply generic_any. unfold drop_returns. induction F as [|x r (_ & _ & P & _) F IH]; constructor; [|exact IH].
    cbn [fst snd]. destruct (String.eqb (fst x) "returns"); [apply adds_nop|exact P].
  Qed.

  Lemma kid_small f fs : Forall (fun fx => small (snd fx)) fs ->
    (exists x, assoc f fs = Some x /\ kid f (map (fun fx => (fst fx, sem e (snd fx))) fs) = sem e x /\ small x) \/
    kid f (map (fun fx => (fst fx, sem e (snd fx))) fs) = KOther.
  Proof.
    unfold kid. intros F. induction F as [|[g y] r S F IH]; [right; reflexivity|]. cbn [map assoc fst snd]. destruct (String.eqb f g); [|exact IH].
    left. exists y. auto.
  Qed.

  Lemma all_small v : small v.
  Proof.
    induction v using pyval_rect'; try (repeat split; apply adds_nop).
    - (* a list *)
      assert (V : adds (passes (VList l)) (each k_visit (map (sem e) l))).
      { cbn [passes]. induction H as [|x r (P & _) F IH]; [apply adds_nop|]. cbn [map each]. change (list_sum (?a :: ?l)) with (a + list_sum l)%nat.
        apply adds_seq; [exact P|exact IH]. }
      assert (G : adds (passes (VList l)) (each k_gvisit (map (sem e) l))).
      { cbn [passes]. clear V. induction H as [|x r (_ & P & _) F IH]; [apply adds_nop|]. cbn [map each]. change (list_sum (?a :: ?l)) with (a + list_sum l)%nat.
        apply adds_seq; [exact P|exact IH]. }
      repeat split; try apply adds_nop; assumption.
    - (* a node *)
      set (ks := map (fun fx => (fst fx, sem e (snd fx))) fs).
      assert (G0 : forall w, adds (plain fs) (generic_visit e w ks)) by (intros w; apply generic_adds, H).
      assert (G : forall w, adds (passes (VNode k u p fs)) (generic_visit e w ks)) by (intros w; exact (adds_le _ _ _ (G0 w) (plain_passes k u p fs))).
      assert (GD : forall w, adds (passes (VNode k u p fs)) (generic_visit e w (drop_returns ks))).
      { intros w. exact (adds_le _ _ _ (dropped_adds w fs H) (plain_passes k u p fs)). }
      assert (V : adds (passes (VNode k u p fs)) (handler e k u p fs ks)).
      { destruct (kind_eqb k KTry) eqn:KT; [apply Proof_Tour.kind_eqb_eq in KT as ->|].
        - cbn [handler]. unfold visit_try. apply adds_no_line. apply adds_before; [mm|].
          destruct (kid_small "finalbody" fs H) as [(x & A & K & (_ & _ & _ & S & _))|K]; fold ks in K; rewrite K.
          + apply (adds_le (passes x + plain fs)); [|exact (twice_passes KTry u p fs "finalbody" x eq_refl A)].
            apply adds_seq; [exact S|]. apply adds_before; [mm|]. apply G0.
          + apply adds_before; [apply mute_nop|]. apply adds_before; [mm|]. apply G.
        - destruct (kind_eqb k KClassDef) eqn:KC; [apply Proof_Tour.kind_eqb_eq in KC as ->|].
          + cbn [handler]. unfold visit_classdef. apply adds_no_line. apply adds_before; [mm|]. apply adds_before; [mm|]. apply adds_before; [mm|].
            apply adds_before; [mm|].
            destruct (kid_small "body" fs H) as [(x & A & K & (_ & _ & _ & _ & S))|K]; fold ks in K; rewrite K.
            * apply (adds_le (plain fs + passes x)); [|pose proof (twice_passes KClassDef u p fs "body" x eq_refl A); lia].
              apply adds_seq; [apply G0|exact S].
            * apply adds_behind; [apply G|apply mute_nop].
          + apply handler_adds; [apply G|apply GD|intros ->; discriminate|intros ->; discriminate]. }
      repeat split; try apply adds_nop; try exact V. apply G.
  Qed.

  Lemma tour_adds v s : tour e v = Ok s -> (dumped s <= passes v)%nat.
  Proof.
    intros E. unfold tour in E. assert (A : adds (passes v) (visit e v >> after_visit_all e)).
    { apply adds_behind; [exact (proj1 (all_small v))|]. unfold after_visit_all. mm. }
    exact (A _ _ E).
  Qed.
End Work.

Lemma passes_nested v : (passes v <= 2 ^ nested v * nodes v)%nat.
Proof.
  assert (P1 : forall n, (1 <= 2 ^ n)%nat) by (intros n; apply Nat.neq_0_lt_0, Nat.pow_nonzero; discriminate).
  assert (L : forall A (f g m : A -> nat) l, Forall (fun x => (f x <= 2 ^ m x * g x)%nat) l ->
    (list_sum (map f l) <= 2 ^ list_max (map m l) * list_sum (map g l))%nat).
  { intros A f g m l F. induction F as [|x r B F IH]; [cbn; lia|]. cbn [map list_max fold_right].
    repeat change (list_sum (?a :: ?l)) with (a + list_sum l)%nat. fold (list_max (map m r)).
    assert (X : (2 ^ m x <= 2 ^ Nat.max (m x) (list_max (map m r)))%nat) by (apply Nat.pow_le_mono_r; lia).
    assert (Y : (2 ^ list_max (map m r) <= 2 ^ Nat.max (m x) (list_max (map m r)))%nat) by (apply Nat.pow_le_mono_r; lia). nia. }
  induction v using pyval_rect'; try (cbn; lia).
  - cbn [passes nested nodes]. apply L, H.
  - cbn [passes nested nodes].
    assert (B := L _ (fun fx => if twice k (fst fx) then (passes (snd fx) + passes (snd fx))%nat else passes (snd fx)) (fun fx => nodes (snd fx))
      (fun fx => if twice k (fst fx) then S (nested (snd fx)) else nested (snd fx)) fs).
    specialize (B ltac:(eapply Forall_impl; [|exact H]; intros x Hx; cbn beta in *; destruct (twice k (fst x)); [rewrite Nat.pow_succ_r'; nia|exact Hx])).
    pose proof (P1 (list_max (map (fun fx : string * pyval => if twice k (fst fx) then S (nested (snd fx)) else nested (snd fx)) fs))). nia.
Qed.

Lemma nested_none v : nested v = 0%nat -> (passes v <= nodes v)%nat.
Proof. intros E. pose proof (passes_nested v) as P. rewrite E in P. cbn [Nat.pow] in P. lia. Qed.
