(** What an analysis comes to, and what it knows there. Lemmas for C38, C40, C61. *)
From Verif Require Import PyBase PyLemmas Utility RulesData Rules Config Formats Paths AstKinds Ast State Visitor
  Spec_Base Spec_Visitor Spec_Same Spec_MinVersions Spec_Seen Proof_Shapes Proof_Runs Proof_Handlers Proof_Brackets Proof_Tour Proof_Claims Proof_Scopes Proof_Same Proof_Forms
  Proof_Seen Proof_Sight.
From Verif Require Proof_Utility.

(** The bounds of a tree, after the nodes [L]. *)
Definition own_bounds (e : env) (v : pyval) (L : list pyval) : bounds :=
  mkBounds (fun x => exists m, below m v /\ defines m x) (fun a m => exists n, below n v /\ aliases n a m)
    (fun x => exists m, below m v /\ assigns m x) (fun x p => exists m, below m v /\ imports_from m p x)
    (fun u => exists m, below m v /\ isa KSubscript m /\ In u (slice_ellipses (attr "slice" m)))
    (fun x => exists i m, In i L /\ renames e i x m) (fun x => exists i p, In i L /\ brings e i p x)
    (fun x => exists i, In i L /\ loads e i x /\ reportable e v x)
    (fun x t => exists n, below n v /\ assigns n x /\ ((isa KFor n \/ isa KAsyncFor n) /\ t = "dict" \/
       exists man o, (forall y m, In (y, m) man -> exists n, below n v /\ aliases n y m) /\ assigned_name man (attr "value" n) = Ok (Some t, o)))
    (fun x => exists i w t, In i L /\ gives_value e i x w /\ value_name v w t)
    (fun x t => holds_type e L x t).
Lemma fits_own e v L m : below m v -> fits (own_bounds e v L) m.
Proof.
  intros Bm. repeat split; cbn; intros; exists m; eauto. split; [exact Bm|]. split; [assumption|]. right. eauto.
Qed.
Lemma within_init e v : within (own_bounds e v []) init_st.
Proof.
  repeat split; cbn; try (intros x []; fail); try (intros x y []; fail).
  - intros x (i & m & [] & _).
  - intros x (i & m & [] & _).
  - intros x (i & [] & _).
  - intros x (i & w & t & [] & _).
  - intros x t (i & [] & _).
Qed.

Section Own.
  Variables (e : env) (v : pyval) (L : list pyval).
  Notation B := (own_bounds e v L).

  Lemma alias_defines n a m : aliases n a m -> defines n a.
  Proof.
    intros (i & I & A & H). right. left. split; [destruct H as [[K _]|[K _]]; [left|right]; exact K|]. exists i. auto.
  Qed.
  Lemma own_unnamed x : unnamed v x -> ~ b_def B x.
  Proof. intros U (m & Bm & D). exact (U m Bm D). Qed.
  Lemma own_untouched x : untouched v x -> ~ b_def B x /\ ~ b_asg B x /\ forall m, ~ b_ali B x m.
  Proof.
    intros U. split; [|split].
    - intros (m & Bm & D). exact (proj1 (U m Bm) D).
    - intros (m & Bm & D). exact (proj2 (U m Bm) D).
    - intros m (n & Bn & A). exact (proj1 (U n Bn) (alias_defines _ _ _ A)).
  Qed.
  Lemma own_alias_none x s : unnamed v x -> within B s -> assoc x (s_module_as_name s) = None.
  Proof.
    intros U (_ & W & _). destruct (assoc x (s_module_as_name s)) as [m|] eqn:A; [|reflexivity]. apply assoc_In in A.
    destruct (W x m A) as (n & Bn & D). destruct (U n Bn (alias_defines _ _ _ D)).
  Qed.
  Lemma own_alias x m s : renamed_as e v L x m -> within B s -> assoc x (s_module_as_name s) = Some m.
  Proof.
    intros ((i & I & R) & Q) (_ & W & _ & _ & _ & H & _). destruct (assoc x (s_module_as_name s)) as [m'|] eqn:A.
    - apply assoc_In in A. destruct (W x m' A) as (n & Bn & D). rewrite (Q n m' Bn D). reflexivity.
    - apply assoc_None in A. destruct A. apply H. exists i, m. auto.
  Qed.
  Lemma own_import_none x s : not_imported v x -> within B s -> assoc x (s_import_mem_mod s) = None.
  Proof.
    intros U (_ & _ & _ & W & _). destruct (assoc x (s_import_mem_mod s)) as [p|] eqn:A; [|reflexivity]. apply assoc_In in A.
    destruct (W x p A) as (n & Bn & D). destruct (U n p Bn D).
  Qed.
  Lemma own_import x p s : imported_as e v L x p -> within B s -> assoc x (s_import_mem_mod s) = Some p.
  Proof.
    intros ((i & I & R) & Q) (_ & _ & _ & W & _ & _ & H & _). destruct (assoc x (s_import_mem_mod s)) as [p'|] eqn:A.
    - apply assoc_In in A. destruct (W x p' A) as (n & Bn & D). rewrite (Q n p' Bn D). reflexivity.
    - apply assoc_None in A. destruct A. apply H. exists i, p. auto.
  Qed.
  Lemma own_loaded i m s : In i L -> loads e i m -> reportable e v m -> within B s -> In m (s_modules s).
  Proof. intros I H R (_ & _ & _ & _ & _ & _ & _ & W & _). apply W. exists i. auto. Qed.
  Lemma own_assigned x s : unassigned v x -> within B s -> assoc x (s_name_res s) = None.
  Proof.
    intros U (_ & _ & W & _). apply assoc_None. intros I. destruct (W x I) as (n & Bn & D). exact (U n Bn D).
  Qed.
  Lemma own_held x t s : holds e v L x t -> within B s -> assoc x (s_name_res s) = Some t.
  Proof.
    intros ((i & w & I & G & N) & H) (_ & _ & _ & _ & _ & _ & _ & _ & W & Wh & _).
    destruct (assoc x (s_name_res s)) as [t'|] eqn:A.
    - apply assoc_In in A. destruct (W x t' A) as (n & Bn & As & D). f_equal. specialize (H n Bn As).
      destruct H as [Hl H]. destruct D as [[Lo ->]|(man & o & M & E)]; [symmetry; exact (Hl Lo)|]. destruct H as [H|[H|H]].
      + rewrite (value_assigned v man _ t) in E; [congruence| |exact H]. intros b U. destruct (assoc b man) as [m|] eqn:Q; [|reflexivity].
        apply assoc_In in Q. destruct (M b m Q) as (n' & Bn' & D). destruct (U n' Bn' (alias_defines _ _ _ D)).
      + apply isa_node in H as (u1 & p1 & fs1 & Q). rewrite Q in E. discriminate E.
      + rewrite H in E. discriminate E.
    - apply assoc_None in A. destruct A. apply Wh. exists i, w, t. auto.
  Qed.
  Lemma own_typed x t s : holds_type e L x t -> within B s -> typed (s_name_res_type s) x t.
  Proof. intros H (_ & _ & _ & _ & _ & _ & _ & _ & _ & _ & W). apply W, H. Qed.
End Own.

Lemma slice_direct m u : In u (slice_ellipses (attr "slice" m)) -> exists y, direct_slice y m /\ constant VEllipsis y /\ uid_of y = u.
Proof.
  intros I. unfold slice_ellipses in I. apply in_app_or in I as [I|I].
  - destruct (is_ellipsis_node (attr "slice" m)) eqn:Q; [|destruct I]. destruct I as [<-|[]]. exists (attr "slice" m).
    split; [left; reflexivity|]. split; [apply ellipsis_node_constant, Q|reflexivity].
  - destruct (is_kind KTuple (attr "slice" m)) eqn:Q; [|destruct I]. apply in_map_iff in I as (y & <- & I).
    apply filter_In in I as [I E]. exists y. split; [right; split; assumption|]. split; [apply ellipsis_node_constant, E|reflexivity].
Qed.

(** What the visit of a node does follows from what its handler does. *)
Lemma node_visit o e v L n P : below n v ->
  (forall k u p fs ks, n = VNode k u p fs -> fits (own_bounds e v L) n -> step (own_bounds e v L) (visit_fields ks) ->
     step (own_bounds e v L) (visit_fields (drop_returns ks)) ->
     (forall x, In x (k_list (kid "finalbody" ks)) -> step (own_bounds e v L) (k_visit x)) ->
     (k = KClassDef -> forall x, In x (k_list (kid "body" ks)) -> step (own_bounds e v L) (k_gvisit x)) ->
     passes o (own_bounds e v L) P (handler e k u p fs ks)) ->
  passes o (own_bounds e v L) P (visit e n).
Proof.
  intros Bn H. assert (N : is_node n = true) by (clear H; induction Bn; auto).
  destruct n as [ |b|z|s|s|s|s| |l|k u p fs]; try discriminate N. unfold visit. cbn [sem k_visit].
  destruct (steps_kids (own_bounds e v L) (map (fun fx => (fst fx, sem e (snd fx))) fs)) as (H1 & H2 & H3).
  { intros f k' J. apply in_map_iff in J as ([f' z] & Q & J). injection Q as <- <-. apply steps_sem.
    intros m Bm. apply fits_own. exact (below_trans _ _ _ (below_field _ _ _ _ _ _ _ J Bm) Bn). }
  apply H; try assumption; [reflexivity|apply fits_own, Bn| |].
  - intros x I. apply (H3 "finalbody"), I.
  - intros _ x I. apply (H3 "body"), I.
Qed.
Lemma visit_step e v L n : below n v -> step (own_bounds e v L) (visit e n).
Proof. intros Bn. apply steps_sem. intros m Bm. apply fits_own. exact (below_trans _ _ _ Bm Bn). Qed.

(** ** Imports seen before *)
Lemma lasts B (R : st -> Prop) a s s' : (forall s s', R s -> grew false s s' -> R s') -> passes false B (fun _ s => R s) a ->
  within B s -> a s = Ok s' -> R s'.
Proof. intros K P W E. destruct (P _ _ W E) as (_ & s1 & s2 & H & G). exact (K _ _ H G). Qed.
Lemma grew_aliases b s s' : grew b s s' -> incl (map fst (s_module_as_name s)) (map fst (s_module_as_name s')).
Proof. intros (_ & _ & _ & _ & _ & _ & _ & _ & _ & _ & H & _). exact H. Qed.
Lemma grew_imports b s s' : grew b s s' -> incl (map fst (s_import_mem_mod s)) (map fst (s_import_mem_mod s')).
Proof. intros (_ & _ & _ & _ & _ & _ & _ & _ & _ & _ & _ & H & _). exact H. Qed.
Lemma grew_res b s s' : grew b s s' -> incl (map fst (s_name_res s)) (map fst (s_name_res s')).
Proof. intros (_ & _ & _ & _ & _ & _ & _ & _ & _ & _ & _ & _ & H & _). exact H. Qed.
Lemma grew_types b s s' x t : grew b s s' -> typed (s_name_res_type s) x t -> typed (s_name_res_type s') x t.
Proof. intros (_ & _ & _ & _ & _ & _ & _ & _ & _ & _ & _ & _ & _ & H & _). apply H. Qed.
Lemma grew_modules b s s' : grew b s s' -> incl (s_modules s) (s_modules s').
Proof. intros (_ & H & _). exact H. Qed.
Lemma passes_trans B1 B2 P e w a : passes false B1 (visits e B2 w) a -> passes false B2 P (visit e w) -> passes false B1 P a.
Proof.
  intros X Y s s' W E. destruct (X _ _ W E) as (W' & s1 & s2 & (W1 & E1) & G). split; [exact W'|].
  destruct (Y _ _ W1 E1) as (_ & s3 & s4 & H & G'). exists s3, s4. split; [exact H|exact (grew_tran _ _ _ _ G' G)].
Qed.
Lemma each_app {A} (f : A -> act) l l' s : each f (l ++ l') s = (each f l >> each f l') s.
Proof.
  revert s. induction l as [|x r IH]; intros s; [reflexivity|]. cbn [each app]. unfold Visitor.seq. destruct (f x s) as [s1|]; [|reflexivity].
  rewrite IH. reflexivity.
Qed.

Section Before.
  Variables (e : env) (v : pyval) (L : list pyval).
  Notation B := (own_bounds e v L).

  (** What a visited node leaves is there after a list with a node it is seen in. *)
  Lemma fact_after (R : st -> Prop) j y l s s' : (forall s s', R s -> grew false s s' -> R s') ->
    (forall z, In z l -> forall m, below m z -> below m v) -> In y l -> seen e false j y ->
    passes false B (fun _ s => R s) (visit e j) -> within B s -> each k_visit (map (sem e) l) s = Ok s' -> R s'.
  Proof.
    intros K Bl I S P W E. apply (lasts B R (each k_visit (map (sem e) l)) s s' K); [|exact W|exact E].
    apply passes_each with (x := sem e y); [apply in_map, I| |].
    - apply (passes_trans B B _ e j); [|exact P]. apply seen_visited; [|exact S]. intros m Bm. apply fits_own. exact (Bl y I m Bm).
    - intros z Jz. apply in_map_iff in Jz as (z' & <- & Jz). apply steps_sem. intros m Bm. apply fits_own. exact (Bl z' Jz m Bm).
  Qed.
  Lemma facts_after J l s s' : (forall z, In z l -> forall m, below m z -> below m v) ->
    (forall j, In j J -> exists y, In y l /\ seen e false j y) -> within B s -> each k_visit (map (sem e) l) s = Ok s' ->
    within B s' -> within (own_bounds e v (J ++ L)) s'.
  Proof.
    intros Bl HJ W E (W1 & W2 & W3 & W4 & W5 & W6 & W7 & W8 & W9 & W10 & W11). do 5 (split; [assumption|]).
    assert (X : forall j (R : st -> Prop), In j J -> (forall s s', R s -> grew false s s' -> R s') ->
              passes false B (fun _ s => R s) (visit e j) -> R s').
    { intros j R Ij K P. destruct (HJ j Ij) as (y & Iy & S). exact (fact_after R j y l s s' K Bl Iy S P W E). }
    assert (Bj : forall j, In j J -> below j v).
    { intros j Ij. destruct (HJ j Ij) as (y & Iy & S). exact (Bl y Iy j (seen_below _ _ _ _ S)). }
    cbn. split; [|split; [|split; [|split; [exact W9|split]]]].
    - intros x (i & m & I & R). apply in_app_or in I as [I|I]; [|apply W6; exists i, m; auto].
      apply (X i (fun s => In x (map fst (s_module_as_name s))) I); [intros a b Q G; exact (grew_aliases _ _ _ G x Q)|].
      apply node_visit; [exact (Bj i I)|]. intros k u p fs ks -> F H1 H2 H3 H4. eapply renames_handler; eassumption.
    - intros x (i & m & I & R). apply in_app_or in I as [I|I]; [|apply W7; exists i, m; auto].
      apply (X i (fun s => In x (map fst (s_import_mem_mod s))) I); [intros a b Q G; exact (grew_imports _ _ _ G x Q)|].
      apply node_visit; [exact (Bj i I)|]. intros k u p fs ks -> F H1 H2 H3 H4. eapply brings_handler; eassumption.
    - intros x (i & I & R & Rp). apply in_app_or in I as [I|I]; [|apply W8; exists i; auto].
      apply (X i (fun s => In x (s_modules s)) I); [intros a b Q G; exact (grew_modules _ _ _ G x Q)|].
      apply node_visit; [exact (Bj i I)|]. intros k u p fs ks -> F H1 H2 H3 H4. eapply loads_handler; try eassumption. apply own_unnamed.
    - intros x (i & w & t & I & R & N). apply in_app_or in I as [I|I]; [|apply W10; exists i, w, t; auto].
      apply (X i (fun s => In x (map fst (s_name_res s))) I); [intros a b Q G; exact (grew_res _ _ _ G x Q)|].
      apply node_visit; [exact (Bj i I)|]. intros k u p fs ks -> F H1 H2 H3 H4. eapply value_handler; try eassumption. apply own_alias_none.
    - intros x t (i & I & R). apply in_app_or in I as [I|I]; [|apply W11; exists i; auto].
      apply (X i (fun s => typed (s_name_res_type s) x t) I); [intros a b Q G; exact (grew_types _ _ _ x t G Q)|].
      apply node_visit; [exact (Bj i I)|]. intros k u p fs ks -> F H1 H2 H3 H4. eapply type_handler; eassumption.
  Qed.

  Lemma item_visited w f l1 x l2 J : below w v -> opens e false w f -> In (f, VList (l1 ++ x :: l2)) (fields w) -> is_node x = true ->
    (forall j, In j J -> exists y, In y l1 /\ seen e false j y) ->
    passes false B (visits e (own_bounds e v (J ++ L)) x) (visit e w).
  Proof.
    intros Bw O I N HJ. apply (open_field e false B _ w f (VList (l1 ++ x :: l2))); [intros m Bm; apply fits_own; exact (below_trans _ _ _ Bm Bw)|exact O|exact I|].
    destruct w as [ |b|z|s|s|s|s| |l0|k u p fs]; try (exfalso; exact I).
    assert (Bl : forall z, In z (l1 ++ x :: l2) -> forall m, below m z -> below m v).
    { intros z Iz m Bm. exact (below_trans _ _ _ (below_field _ _ _ _ _ _ _ I (below_item _ _ _ Iz Bm)) Bw). }
    intros s s' W E. cbn [sem visit_field] in E. rewrite map_app, each_app in E. destruct (seq_ok _ _ _ _ E) as (s1 & E1 & E2).
    cbn [map each] in E2. destruct (seq_ok _ _ _ _ E2) as (s2 & E3 & E4).
    assert (Sl : forall l, (forall z, In z l -> In z (l1 ++ x :: l2)) -> step B (each k_visit (map (sem e) l))).
    { intros l Il. apply step_each. intros z Jz. apply in_map_iff in Jz as (z' & <- & Jz). apply steps_sem. intros m Bm. apply fits_own.
      exact (Bl z' (Il z' Jz) m Bm). }
    assert (I1 : forall z, In z l1 -> In z (l1 ++ x :: l2)) by (intros; apply in_or_app; left; assumption).
    assert (I2 : forall z, In z l2 -> In z (l1 ++ x :: l2)) by (intros; apply in_or_app; right; right; assumption).
    destruct (Sl l1 I1 _ _ W E1) as [W1 _].
    assert (S2 : step B (visit e x)) by (apply steps_sem; intros m Bm; apply fits_own; apply (Bl x); [apply in_elt|exact Bm]).
    destruct (S2 _ _ W1 E3) as [W2 _].
    destruct (Sl l2 I2 _ _ W2 E4) as [W3 G3].
    split; [exact W3|]. exists s1, s2. split; [|apply grew_weak, G3]. split; [|exact E3].
    apply (facts_after J l1 s s1); try assumption. intros z Iz. apply Bl, I1, Iz.
  Qed.
End Before.

(** ** Keyword arguments *)
Definition keeps (a : act) : Prop := forall s s', a s = Ok s' -> s_fns s' = s_fns s.
Section Keeps.
  Lemma keeps_nop : keeps nop.
  Proof. intros s s' E. injection E as <-. reflexivity. Qed.
  Lemma keeps_fail x : keeps (fail x).
  Proof. intros s s' E. discriminate. Qed.
  Lemma keeps_seq a b : keeps a -> keeps b -> keeps (a >> b).
  Proof. intros X Y s s' E. destruct (seq_ok _ _ _ _ E) as (s1 & E1 & E2). rewrite (Y _ _ E2). exact (X _ _ E1). Qed.
  Lemma keeps_when b a : keeps a -> keeps (when b a).
  Proof. destruct b; [auto|]. intros _. apply keeps_nop. Qed.
  Lemma keeps_rd f : (forall s, keeps (f s)) -> keeps (rd f).
  Proof. intros F s s' E. exact (F s s s' E). Qed.
  Lemma keeps_with_res {A} (m : res A) f : (forall a, keeps (f a)) -> keeps (with_res m f).
  Proof. intros F. destruct m; [apply F|apply keeps_fail]. Qed.
  Lemma keeps_each {A} (f : A -> act) l : (forall x, In x l -> keeps (f x)) -> keeps (each f l).
  Proof.
    induction l as [|x r IH]; intros F; [apply keeps_nop|]. cbn [each]. apply keeps_seq; [apply F; left; reflexivity|].
    apply IH. intros y I. apply F. right. exact I.
  Qed.
  Lemma keeps_print e lv m en li ve pl : keeps (verbose_print_v e lv m en li ve pl).
  Proof. intros s s' E. destruct (print_out _ _ _ _ _ _ _ _ _ E) as (o & ->). reflexivity. Qed.
  Lemma keeps_flag f : keeps (set_flag f).
  Proof. intros s s' E. unfold set_flag, upd in E. injection E as <-. destruct (existsb _ _); reflexivity. Qed.
  Lemma keeps_upd f : (forall s, s_fns (f s) = s_fns s) -> keeps (upd f).
  Proof. intros H s s' E. injection E as <-. apply H. Qed.
End Keeps.
Ltac f1 :=
  lazymatch goal with
  | |- keeps nop => apply keeps_nop
  | |- keeps (fail _) => apply keeps_fail
  | |- keeps (_ >> _) => apply keeps_seq
  | |- keeps (when _ _) => apply keeps_when
  | |- keeps (rd _) => apply keeps_rd; intros ?s
  | |- keeps (with_res _ _) => apply keeps_with_res; intros ?r
  | |- keeps (each _ _) => apply keeps_each; intros ?x ?I
  | |- keeps (verbose_print_v _ _ _ _ _ _ _) => apply keeps_print
  | |- keeps (vv _ _ _) => apply keeps_print
  | |- keeps (vv_pl _ _ _ _) => apply keeps_print
  | |- keeps (vvl _ _ _ _) => apply keeps_print
  | |- keeps (vvl_pl _ _ _ _) => apply keeps_print
  | |- keeps (vv_msg _ _) => apply keeps_print
  | |- keeps (vvl_msg _ _ _) => apply keeps_print
  | |- keeps (vvv _ _ _) => apply keeps_print
  | |- keeps (vvvv _ _) => apply keeps_print
  | |- keeps (set_flag _) => apply keeps_flag
  | |- keeps (upd _) => apply keeps_upd; intros ?s; reflexivity
  | |- keeps (if ?b then _ else _) => destruct b
  | |- keeps (match ?x with _ => _ end) => destruct x
  end.
Ltac ff := repeat f1.

Lemma keeps_add_member e m l c : keeps (add_member e m l c).
Proof. unfold add_member, add_lc. ff. Qed.
Lemma keeps_codecs e f a k l : keeps (check_codecs_function e f a k l).
Proof. unfold check_codecs_function, add_codecs_error_handler, add_codecs_encoding, when_const, add_ceh, add_cenc, add_lc_val, add_lc. ff. Qed.
Lemma keeps_typecodes a l c : keeps (add_typecodes a l c).
Proof. unfold add_typecodes, add_array_typecode, add_lc. ff. Qed.
Lemma keeps_unpacking e a k : keeps (check_gen_unp_call e a k).
Proof. unfold check_gen_unp_call, gen_unpacking. ff. Qed.

Lemma no_dot_all x : no_dot x -> sall (fun c => negb (Ascii.eqb "." c)) x = true.
Proof.
  induction x as [|c r IH]; intros N; [reflexivity|]. rewrite Proof_Utility.sall_cons. destruct (Ascii.eqb "." c) eqn:Q.
  - apply Ascii.eqb_eq in Q as <-. destruct (N "" r). reflexivity.
  - cbn [negb andb]. apply IH. intros a b ->. exact (N (String c a) b eq_refl).
Qed.

Section Keywords.
  Variables (e : env) (v : pyval) (L : list pyval).
  Notation B := (own_bounds e v L).

  (** The name that a call is entered under, and what it is resolved to. *)
  Definition entered (n : pyval) (g f : string) : Prop :=
    (calls g n \/ isa KAttribute (attr "func" n) /\ forall s, within B s -> dotted_attr (s_module_as_name s) (attr "func" n) = Ok g) /\
    forall s, within B s -> kw_function s g = f.
  Lemma stands_own b r s : stands e v L b r -> within B s -> resolve_module_name (s_module_as_name s) b = r.
  Proof.
    intros [U|m R] W; unfold resolve_module_name; [rewrite (own_alias_none e v L b s U W)|rewrite (own_alias e v L b m s R W)]; reflexivity.
  Qed.
  Lemma keywords_entered n f : keywords_for e v L n f -> exists g, entered n g f.
  Proof.
    intros H. destruct H as [x C N I U|x p C I|b r h t D S N I I' U|b t p D Un N I I'].
    - exists x. split; [left; exact C|]. intros s W. unfold kw_function. rewrite (own_import_none e v L x s I W). unfold split_char.
      rewrite (Proof_Utility.split_on_none _ _ (no_dot_all _ N)), (own_import_none e v L x s I W), (own_assigned e v L x s U W). reflexivity.
    - exists x. split; [left; exact C|]. intros s W. unfold kw_function. rewrite (own_import e v L x p s I W). reflexivity.
    - exists (h +++ "." +++ t). split.
      + right. split; [exact (dotted_kind _ _ _ _ D)|]. intros s W. exact (dotted_name_dotted _ _ _ _ _ D (stands_own b r s S W)).
      + intros s W. unfold kw_function. rewrite (own_import_none e v L _ s I W). unfold split_char.
        change (h +++ "." +++ t) with (h +++ String "." t). rewrite (Proof_Utility.split_on_app _ _ "." t (no_dot_all _ N) eq_refl).
        rewrite (own_import_none e v L h s I' W), (own_assigned e v L h s U W). reflexivity.
    - exists (b +++ "." +++ t). split.
      + right. split; [exact (dotted_kind _ _ _ _ D)|]. intros s W.
        exact (dotted_name_dotted _ _ _ _ _ D (stands_own b b s (sd_outside _ _ _ _ Un) W)).
      + intros s W. unfold kw_function. rewrite (own_import_none e v L _ s I W). unfold split_char.
        change (b +++ "." +++ t) with (b +++ String "." t). rewrite (Proof_Utility.split_on_app _ _ "." t (no_dot_all _ N) eq_refl).
        rewrite (own_import e v L b p s I' W). reflexivity.
  Qed.

  Notation kids fs := (map (fun fx : string * pyval => (fst fx, sem e (snd fx))) fs).
  Lemma call_entered n g f s s' : below n v -> isa KCall n -> counted e n -> entered n g f -> within B s -> visit e n s = Ok s' ->
    exists u p fs s1 s2, n = VNode KCall u p fs /\ within B s1 /\ In g (s_fns s1) /\ visit_fields (kids fs) s1 = Ok s2 /\
      within B s' /\ grew false s2 s'.
  Proof.
    intros Bn K C (G & _) W E. pose proof (visit_step e v L n Bn _ _ W E) as [W' _].
    apply isa_node in K as (u & p & fs & ->). exists u, p, fs. unfold visit in E. cbn [sem k_visit handler] in E. unfold visit_call in E.
    destruct (steps_kids B (kids fs)) as (H1 & H2 & H3).
    { intros f' k' J. apply in_map_iff in J as ([f'' z] & Q & J). injection Q as <- <-. apply steps_sem.
      intros m Bm. apply fits_own. exact (below_trans _ _ _ (below_field _ _ _ _ _ _ _ J Bm) Bn). }
    assert (N : is_no_line e (pos_line p) = false).
    { unfold is_no_line. apply not_true_iff_false. intros Q. apply existsb_exists in Q as (y & I & Y). apply Z.eqb_eq in Y as <-. exact (C I). }
    unfold unless_no_line in E. rewrite N in E.
    destruct (seq_ok _ _ _ _ E) as (s1 & E1 & E'). destruct (seq_ok _ _ _ _ E') as (s2 & E2 & E''). destruct (seq_ok _ _ _ _ E'') as (s3 & E3 & E4).
    assert (X : within B s1 /\ In g (s_fns s1)).
    { destruct G as [(_ & Na)|(Ka & D)].
      - pose proof (named_name_id _ _ Na) as Q. destruct Na as [Kn _]. change (attr "func" (VNode KCall u p fs)) with (fld "func" fs) in *.
        apply isa_node in Kn as (u0 & p0 & fs0 & Ef). rewrite Ef in E1, Q. cbn in Q. injection Q as Q. rewrite Q in E1.
        unfold call_name in E1. destruct (seq_ok _ _ _ _ E1) as (a & Ea & Eb). injection Ea as <-.
        match type of Eb with ?act _ = _ => assert (Kp : keeps act) end.
        { ff; first [apply keeps_add_member | apply keeps_codecs | apply keeps_typecodes]. }
        match type of Eb with ?act _ = _ => assert (Sp : step B act) end.
        { tt_; first [apply step_add_member | apply step_codecs | apply step_typecodes]. }
        assert (Wp : within B (u_fns (s_fns s ++ [g]) s)) by exact W. split; [apply (Sp _ _ Wp Eb)|]. rewrite (Kp _ _ Eb). cbn. apply in_or_app. right. left. reflexivity.
      - change (attr "func" (VNode KCall u p fs)) with (fld "func" fs) in *.
        pose proof Ka as Ka'. apply isa_node in Ka' as (u0 & p0 & fs0 & Ef). rewrite Ef in E1. rewrite <- Ef in E1.
        unfold call_attribute in E1. destruct (seq_ok _ _ _ _ E1) as (a & Ea & Eb).
        match type of Ea with ?act _ = _ => assert (Sp : step B act) end.
        { unfold strftime_arg, add_strftime_directive, when_const, add_lc. tt_. }
        destruct (Sp _ _ W Ea) as [Wa _]. unfold rd in Eb. rewrite (D a Wa) in Eb. cbn [with_res] in Eb.
        destruct (seq_ok _ _ _ _ Eb) as (b & Ec & Ed). injection Ec as <-.
        match type of Ed with ?act _ = _ => assert (Kp : keeps act) end.
        { ff; first [apply keeps_codecs | apply keeps_typecodes]. }
        match type of Ed with ?act _ = _ => assert (Sq : step B act) end.
        { tt_; first [apply step_codecs | apply step_typecodes]. }
        assert (Wp : within B (u_fns (s_fns a ++ [g]) a)) by exact Wa. split; [apply (Sq _ _ Wp Ed)|]. rewrite (Kp _ _ Ed). cbn. apply in_or_app. right. left. reflexivity. }
    destruct X as [W1 I1].
    assert (S2 : step B (check_gen_unp_call e (flist "args" fs) (flist "keywords" fs))).
    { unfold check_gen_unp_call, gen_unpacking. tt_. }
    destruct (S2 _ _ W1 E2) as [W2 _]. rewrite <- (keeps_unpacking _ _ _ _ _ E2) in I1.
    unfold generic_visit in E3. destruct (seq_ok _ _ _ _ E3) as (a & Ea & Eb).
    destruct (seq_ok _ _ _ _ Eb) as (b & Ec & Ed). destruct (seq_ok _ _ _ _ Ed) as (c & Ee & Ef). destruct (seq_ok _ _ _ _ Ef) as (d & Eg & Eh).
    match type of Ea with ?act _ = _ => assert (Sa : step B act) by tt_; assert (Ka : keeps act) by ff end.
    match type of Ec with ?act _ = _ => assert (Sb : step B act) by tt_; assert (Kb : keeps act) by ff end.
    match type of Ee with ?act _ = _ => assert (Sc : step B act) by tt_; assert (Kc : keeps act) by ff end.
    match type of Eh with ?act _ = _ => assert (Sd : step B act) by tt_ end.
    destruct (Sa _ _ W2 Ea) as [Wa _]. destruct (Sb _ _ Wa Ec) as [Wb _]. destruct (Sc _ _ Wb Ee) as [Wc _].
    destruct (H1 _ _ Wc Eg) as [Wd _]. destruct (Sd _ _ Wd Eh) as [W3 G3].
    exists c, d. split; [reflexivity|]. split; [exact Wc|]. split; [rewrite (Kc _ _ Ee), (Kb _ _ Ec), (Ka _ _ Ea); exact I1|].
    split; [exact Eg|]. split; [exact W'|]. refine (grew_tran _ _ _ _ (grew_weak _ _ _ G3) _).
    assert (Sp : step B pop_fn) by (unfold pop_fn; tt_). apply grew_weak. exact (proj2 (Sp _ _ W3 E4)).
  Qed.

  Lemma value_keeps y : (forall c, below c y -> isa KCall c -> named_call c) -> keeps (visit e y).
  Proof. intros N s s' E. exact (visit_calls e y s s' N E). Qed.
  Lemma list_keeps l : (forall y c, In y l -> below c y -> isa KCall c -> named_call c) -> keeps (each k_visit (map (sem e) l)).
  Proof.
    intros N. apply keeps_each. intros z I. apply in_map_iff in I as (y & <- & I). exact (value_keeps y (fun c => N y c I)).
  Qed.
  Lemma field_keeps y : (forall c, below c y -> isa KCall c -> named_call c) -> keeps (visit_field (sem e y)).
  Proof.
    intros N. pose proof (value_keeps y N) as V. destruct y as [ |b|z|s|s|s|s| |l|k u p fs]; try (apply keeps_nop); [|exact V].
    cbn [sem visit_field]. apply list_keeps. intros y c I Bc. apply N. exact (below_item _ _ _ I Bc).
  Qed.

  Lemma keyword_visited n w f k : below n v -> keyword_of e v L n w f k ->
    exists g, (forall s, within B s -> kw_function s g = f) /\
      passes false B (fun s1 s2 => within B s1 /\ In g (s_fns s1) /\ visit e w s1 = Ok s2) (visit e n).
  Proof.
    intros Bn (K & C & H & I & (Kw & _) & N & _). assert (Nw : is_node w = true) by (apply isa_node in Kw as (? & ? & ? & ->); reflexivity).
    destruct (keywords_entered n f H) as (g & G). exists g. split; [exact (proj2 G)|].
    intros s s' W E. destruct (call_entered n g f s s' Bn K C G W E) as (u & p & fs & s1 & s2 & -> & W1 & I1 & E1 & W' & G').
    split; [exact W'|]. change (items "keywords" (VNode KCall u p fs)) with (flist "keywords" fs) in I. unfold flist, fld in I.
    destruct (assoc "keywords" fs) as [y|] eqn:A; [|destruct I]. destruct y as [ |b|z|t|t|t|t| |l|k0 u0 p0 fs0]; try (destruct I; fail). cbn [as_list] in I.
    apply assoc_In in A. destruct (in_split _ _ A) as (fa & fb & Ef). destruct (in_split _ _ I) as (la & lb & El).
    assert (Sub : forall f y, In (f, y) fs -> forall m, below m y -> below m (VNode KCall u p fs)).
    { intros f' y J m Bm. exact (below_field _ _ _ _ _ _ _ J Bm). }
    assert (Sf : forall l, incl l fs -> step B (visit_fields (kids l))).
    { intros l0 J. apply step_each. intros [f' k'] J'. apply in_map_iff in J' as ([f'' z] & Q & J'). injection Q as <- <-.
      apply steps_sem. intros m Bm. apply fits_own. exact (below_trans _ _ _ (Sub f'' z (J _ J') m Bm) Bn). }
    assert (Sl : forall l', incl l' l -> step B (each k_visit (map (sem e) l'))).
    { intros l' J. apply step_each. intros z J'. apply in_map_iff in J' as (y & <- & J'). apply steps_sem. intros m Bm. apply fits_own.
      exact (below_trans _ _ _ (Sub _ _ A m (below_item _ _ _ (J _ J') Bm)) Bn). }
    rewrite Ef in E1. unfold visit_fields in E1. rewrite map_app, each_app in E1. destruct (seq_ok _ _ _ _ E1) as (a & Ea & Eb).
    cbn [map each fst snd] in Eb. destruct (seq_ok _ _ _ _ Eb) as (b & Ec & Ed). rewrite El in Ec. cbn [sem visit_field] in Ec.
    rewrite map_app, each_app in Ec. destruct (seq_ok _ _ _ _ Ec) as (c & Ee & Eg). cbn [map each] in Eg.
    destruct (seq_ok _ _ _ _ Eg) as (d & Eh & Ei).
    assert (Fa : incl fa fs) by (rewrite Ef; apply incl_appl, incl_refl).
    assert (Fb : incl fb fs) by (rewrite Ef; apply incl_appr, incl_tl, incl_refl).
    assert (La : incl la l) by (rewrite El; apply incl_appl, incl_refl).
    assert (Lb : incl lb l) by (rewrite El; apply incl_appr, incl_tl, incl_refl).
    destruct (Sf fa Fa _ _ W1 Ea) as [Wa _]. destruct (Sl la La _ _ Wa Ee) as [Wc _].
    destruct (visit_step e v L w (below_trans _ _ _ (Sub _ _ A w (below_item _ _ _ I (below_here _ Nw))) Bn) _ _ Wc Eh) as [Wd _].
    destruct (Sl lb Lb _ _ Wd Ei) as [We Ge]. destruct (Sf fb Fb _ _ We Ed) as [_ Gf].
    exists c, d. split; [|exact (grew_tran _ _ _ _ (grew_weak _ _ _ Ge) (grew_tran _ _ _ _ (grew_weak _ _ _ Gf) G'))].
    split; [exact Wc|]. split; [|exact Eh].
    assert (Kl : keeps (each k_visit (map (sem e) la))).
    { apply list_keeps. intros y c' J Bc. apply N. exact (Sub _ _ A c' (below_item _ _ _ (La _ J) Bc)). }
    assert (Kf : keeps (visit_fields (kids fa))).
    { apply keeps_each. intros [f' k'] J'. apply in_map_iff in J' as ([f'' z] & Q & J'). injection Q as <- <-. cbn [snd]. apply field_keeps.
      intros c' Bc. apply N. exact (Sub _ _ (Fa _ J') c' Bc). }
    rewrite (Kl _ _ Ee), (Kf _ _ Ea). exact I1.
  Qed.

  Lemma puts_kwarg f k l : unnamed v f -> is_excluded_kwarg (e_cfg e) f (kw_text k) = false ->
    passes false B (fun _ s => In (f, k) (s_kwargs s)) (add_kwargs e f k l).
  Proof.
    intros U N. apply passes_here; [|apply step_add_kwargs]. intros s s' W. unfold add_kwargs, rd.
    assert (mem f (s_user_defs s) = false) as -> by (apply mem_false; intros I; exact (own_unnamed e v L f U (proj1 W f I))).
    rewrite N. destruct (existsb (kw_eqb (f, k)) (s_kwargs s)) eqn:Q.
    - intros E. injection E as <-. apply existsb_exists in Q as ([f' k'] & I & Q). unfold kw_eqb in Q. cbn in Q.
      apply andb_prop in Q as [Qf Qk]. apply String.eqb_eq in Qf as <-. enough (k = k') as -> by exact I.
      destruct k, k'; try discriminate; [|reflexivity]. cbn in Qk. apply String.eqb_eq in Qk as ->. reflexivity.
    - intros E. injection E as <-. cbn. apply in_or_app. right. left. reflexivity.
  Qed.
  Lemma keyword_below n w f k : below n v -> keyword_of e v L n w f k -> below w v.
  Proof.
    intros Bn (K & _ & _ & I & (Kw & _) & _). apply isa_node in K as (u & p & fs & ->). apply isa_node in Kw as (u' & p' & fs' & ->).
    change (items "keywords" (VNode KCall u p fs)) with (flist "keywords" fs) in I. unfold flist, fld in I.
    destruct (assoc "keywords" fs) as [y|] eqn:A; [|destruct I]. destruct y as [ |b|z|t|t|t|t| |l|k0 u0 p0 fs0]; try (destruct I; fail).
    cbn [as_list] in I. apply assoc_In in A.
    exact (below_trans _ _ _ (below_field _ _ _ _ _ _ _ A (below_item _ _ _ I (below_here (VNode Kkeyword u' p' fs') eq_refl))) Bn).
  Qed.
  (** The visit of a keyword argument notes it, and looks at what is given. *)
  Lemma keyword_node n w f k P : below n v -> keyword_of e v L n w f k ->
    (forall u p fs, w = VNode Kkeyword u p fs ->
       (forall l, passes false B P (add_kwargs e f k l)) \/ passes false B P (visit_fields (kids fs))) ->
    passes false B P (visit e n).
  Proof.
    intros Bn H H0. destruct (keyword_visited n w f k Bn H) as (g & G & PV). pose proof (keyword_below n w f k Bn H) as Bw.
    destruct H as (_ & _ & _ & _ & (Kw & Ek) & _ & U & X). apply mem_false in X.
    intros s s' W E. destruct (PV s s' W E) as (W' & s1 & s2 & (W1 & I & E1) & G1). split; [exact W'|].
    apply isa_node in Kw as (u & p & fs & ->). change (attr "arg" (VNode Kkeyword u p fs)) with (fld "arg" fs) in Ek.
    unfold visit in E1. cbn [sem k_visit handler] in E1. unfold visit_keyword, rd in E1. rewrite Ek in E1.
    assert (SF : step B (visit_fields (kids fs))).
    { apply step_each. intros [f' k'] J'. apply in_map_iff in J' as ([f'' z] & Q & J'). injection Q as <- <-.
      apply steps_sem. intros m Bm. apply fits_own. exact (below_trans _ _ _ (below_field _ _ _ _ _ _ _ J' Bm) Bw). }
    assert (Q : existsb (fun func => kw_accepted e s1 (kw_function s1 func) k) (s_fns s1) = true).
    { apply existsb_exists. exists g. split; [exact I|]. unfold kw_accepted. rewrite (G s1 W1). unfold is_excluded_kwarg, kw_text. rewrite X.
      assert (mem f (s_user_defs s1) = false) as -> by (apply mem_false; intros J; exact (own_unnamed e v L f U (proj1 W1 f J))). reflexivity. }
    rewrite Q in E1.
    match type of E1 with ?a s1 = _ => assert (Pa : passes false B P a) end.
    { destruct (H0 u p fs eq_refl) as [H|H].
      - apply passes_seq_l; [|cbn [when]; apply step_generic, SF].
        apply (passes_each _ _ _ _ _ g I); [rewrite (G s1 W1); apply H|]. intros; apply step_add_kwargs.
      - apply passes_seq_r; [|cbn [when]; apply passes_generic, H]. apply step_each. intros; apply step_add_kwargs. }
    destruct (Pa _ _ W1 E1) as (_ & a & b & Hp & Gp). exists a, b. split; [exact Hp|exact (grew_tran _ _ _ _ Gp G1)].
  Qed.
  Lemma keyword_recorded n w f k : below n v -> keyword_of e v L n w f k ->
    passes false B (fun _ s => In (f, k) (s_kwargs s)) (visit e n).
  Proof.
    intros Bn H. apply (keyword_node n w f k _ Bn H). intros u p fs _. left. intros l.
    destruct H as (_ & _ & _ & _ & _ & _ & U & X). apply puts_kwarg; [exact U|apply mem_false, X].
  Qed.
  Lemma keyword_opened n w f k g x : below n v -> keyword_of e v L n w f k -> child g x w -> passes false B (visits e B x) (visit e n).
  Proof.
    intros Bn H C. apply (keyword_node n w f k _ Bn H). intros u p fs ->. right.
    assert (F : forall m, below m (VNode Kkeyword u p fs) -> fits B m).
    { intros m Bm. apply fits_own. exact (below_trans _ _ _ Bm (keyword_below _ _ _ _ Bn H)). }
    destruct (child_field e false B (visits e B x) g x _ F C) as (y & I & P).
    - apply passes_here; [split; assumption|]. apply steps_sem. intros m Bm. exact (F m (child_below _ _ _ _ C Bm)).
    - exact (proj1 (into_fields e false B _ g y _ _ _ _ F I P)).
  Qed.
End Keywords.

(** ** What is reached is visited *)
Lemma reached_visited e v L n : reached e v L n ->
  below n v /\ passes false (own_bounds e v []) (visits e (own_bounds e v L) n) (visit e v).
Proof.
  assert (Fit : forall L m, below m v -> fits (own_bounds e v L) m) by (intros; apply fits_own; assumption).
  assert (Sub : forall L w, below w v -> forall m, below m w -> fits (own_bounds e v L) m).
  { intros L' w Bw m Bm. apply Fit. exact (below_trans _ _ _ Bm Bw). }
  intros R. induction R as [N|L w f x R [Bw IH] O I N|L w f l1 x l2 J R [Bw IH] O I N S|L w y f x R [Bw IH] K C I Ch|L n w f k g x R [Bn IH] K Ch].
  - split; [exact (below_here _ N)|]. apply passes_here; [split; assumption|]. apply visit_step, below_here, N.
  - assert (Ch : child f x w) by (split; [exact N|]; exists x; split; [exact I|left; reflexivity]).
    assert (S : seen e false x w) by (exact (seen_child _ _ _ _ _ _ O Ch (seen_here _ _ _ N))).
    split; [exact (below_trans _ _ _ (seen_below _ _ _ _ S) Bw)|]. eapply passes_trans; [exact IH|].
    apply seen_visited; [apply Sub, Bw|exact S].
  - split; [|eapply passes_trans; [exact IH|]; eapply item_visited; eassumption].
    destruct w as [ |b|z|s|s|s|s| |l0|k u p fs]; try (exfalso; exact I).
    refine (below_trans _ _ _ (below_field _ _ _ _ _ _ _ I (below_item _ _ _ _ (below_here _ N))) Bw).
    apply in_or_app. right. left. reflexivity.
  - assert (Nx : is_node x = true) by exact (proj1 Ch).
    assert (S : seen e false x w) by (exact (seen_member _ _ _ _ _ _ _ K C I Ch (seen_here _ _ _ Nx))).
    split; [exact (below_trans _ _ _ (seen_below _ _ _ _ S) Bw)|]. eapply passes_trans; [exact IH|].
    apply seen_visited; [apply Sub, Bw|exact S].
  - split; [|eapply passes_trans; [exact IH|]; eapply keyword_opened; eassumption].
    exact (below_trans _ _ _ (child_below _ _ _ _ Ch (below_here _ (proj1 Ch))) (keyword_below _ _ _ _ _ _ _ Bn K)).
Qed.

Lemma certain_set e v L n g : below n v -> certain e v g n -> passes false (own_bounds e v L) (marks g) (visit e n).
Proof.
  intros Bn C. apply node_visit; [exact Bn|]. intros k u p fs ks -> F H1 H2 H3 H4. eapply marks_certain; try eassumption.
  - apply own_untouched.
  - intros m NS Cm (m' & Bm & K & I). destruct (slice_direct _ _ I) as (y & Y & Cy & E). exact (NS m' y Bm K Y Cy E).
Qed.

(** What the visit of a node leaves is there in the end. *)
Definition ends_as s1 s : Prop := exists out,
  s = u_out out (u_members (filter (fun m => negb (mem m (s_user_defs s1))) (s_members s1))
                (u_modules (filter (fun m => negb (mem m (s_user_defs s1))) (s_modules s1)) s1)).
Lemma passed_found o e v P s : tour e v = Ok s -> passes o (own_bounds e v []) P (visit e v) ->
  exists a b s1, P a b /\ grew o b s1 /\ within (own_bounds e v []) s1 /\ ends_as s1 s.
Proof.
  intros T Vis. unfold tour in T. destruct (seq_ok _ _ _ _ T) as (s1 & E1 & E2).
  destruct (after_eq _ _ _ E2) as (out & ->). destruct (Vis _ _ (within_init _ _) E1) as (W1 & a & b & M & G).
  exists a, b, s1. repeat (split; [assumption|]). exists out. reflexivity.
Qed.
Lemma seen_found o e v n P s : tour e v = Ok s -> seen e o n v -> passes o (own_bounds e v []) P (visit e n) ->
  exists a b s1, P a b /\ grew o b s1 /\ within (own_bounds e v []) s1 /\ ends_as s1 s.
Proof.
  intros T S Vis. apply (passed_found o e v P s T). intros s0 s0' W E.
  destruct (seen_visited e o (own_bounds e v []) n v (fits_own e v []) S _ _ W E) as (W1 & a & b & (Wa & Vn) & G). split; [exact W1|].
  destruct (Vis _ _ Wa Vn) as (_ & a' & b' & M & G'). exists a', b'. split; [exact M|]. eapply grew_tran; eassumption.
Qed.
Lemma reached_found e v L n P s : tour e v = Ok s -> reached e v L n -> passes false (own_bounds e v L) P (visit e n) ->
  exists a b s1, P a b /\ grew false b s1 /\ within (own_bounds e v []) s1 /\ ends_as s1 s.
Proof.
  intros T R Vis. apply (passed_found false e v P s T). exact (passes_trans _ _ _ _ _ _ (proj2 (reached_visited e v L n R)) Vis).
Qed.
Lemma reached_certain e v L n g s : tour e v = Ok s -> reached e v L n -> certain e v g n -> In g (s_flags s).
Proof.
  intros T R C.
  destruct (reached_found _ _ _ _ _ _ T R (certain_set e v L n g (proj1 (reached_visited _ _ _ _ R)) C)) as (a & b & s1 & M & G & _ & o & ->).
  exact (proj1 G _ M).
Qed.

Lemma reached_shown e v L n g s : tour e v = Ok s -> reached e v L n -> shown e v g n -> In g (s_flags s).
Proof.
  intros T R C.
  assert (V : forall h, (forall a b, visit e n a = Ok b -> In h (s_flags b)) -> In h (s_flags s)).
  { intros h H. pose proof (proj1 (reached_visited _ _ _ _ R)) as Bn.
    destruct (reached_found e v L n (fun _ b : st => In h (s_flags b)) s T R) as (a & b & s1 & M & G & _ & o & ->);
      [|exact (proj1 G _ M)].
    apply passes_here; [intros a b _; apply H|]. apply visit_step, Bn. }
  assert (M : forall s1, visit e v init_st = Ok s1 -> s_flags s1 = s_flags s).
  { intros s1 E. unfold tour in T. destruct (seq_ok _ _ _ _ T) as (s2 & E1 & E2).
    destruct (after_eq _ _ _ E2) as (out & ->). replace s1 with s2 by congruence. reflexivity. }
  assert (Mv : exists s1, visit e v init_st = Ok s1).
  { unfold tour in T. destruct (seq_ok _ _ _ _ T) as (s2 & E1 & E2). exists s2. exact E1. }
  destruct C as [g n C|n x y l K C I P|n y w K C Sy Ky Cy Sw Kw Cw|n w K S Kw Cw|n x c K C I S Kc|n K I F C In_ A Fw|n K I F C In_ A Fw].
  - exact (reached_certain _ _ _ _ _ _ T R C).
  - apply V. intros a b. exact (with_flag e n x y l a b K C I P).
  - apply V. intros a b. exact (async_generator_flag e n y w a b K C Sy Ky Cy Sw Kw Cw).
  - apply V. intros a b. exact (comprehension_flag e n w a b K S Kw Cw).
  - apply V. intros a b. exact (continue_flag e n x c a b K C I S Kc).
  - destruct Mv as (s1 & E). rewrite <- (M s1 E). exact (proj1 (module_flag e v n s1 K I F C In_ E) A Fw).
  - destruct Mv as (s1 & E). rewrite <- (M s1 E). exact (proj2 (module_flag e v n s1 K I F C In_ E) A Fw).
Qed.

Lemma reached_stood e v L n g s : tour e v = Ok s -> reached e v L n -> stood e v L g n -> In g (s_flags s).
Proof.
  intros T R C. pose proof (proj1 (reached_visited _ _ _ _ R)) as Bn.
  destruct (reached_found e v L n (marks g) s T R) as (a & b & s1 & M & G & _ & o & ->); [|exact (proj1 G _ M)].
  apply node_visit; [exact Bn|]. intros k u p fs ks -> F H1 H2 H3 H4.
  eapply stood_handler; try eassumption;
    first [apply own_unnamed | apply own_untouched | apply own_alias_none | apply own_alias | apply own_import_none | apply own_import
          | apply own_loaded | apply own_assigned | apply own_held | apply own_typed].
Qed.

(** *** Names (C40) *)
Lemma seen_binds e v n x s : tour e v = Ok s -> seen e true n v -> binds_here e x n -> In x (s_user_defs s).
Proof.
  intros T S Bi. edestruct (seen_found true e v n (fun _ s => In x (s_user_defs s)) s T S) as (a & b & s1 & M & G & _ & o & ->).
  - apply node_visit; [exact (seen_below _ _ _ _ S)|]. intros k u p fs ks -> F H1 H2 H3 H4. eapply binds_handler; eassumption.
  - destruct G as (_ & _ & _ & _ & _ & _ & _ & _ & _ & _ & _ & _ & _ & _ & G). exact (G eq_refl x M).
Qed.
Lemma seen_not_library e v n x s : tour e v = Ok s -> seen e true n v -> binds_here e x n -> ~ In x (s_modules s) /\ ~ In x (s_members s).
Proof.
  intros T S Bi. pose proof (seen_binds _ _ _ _ _ T S Bi) as I.
  split; intros J; exact (tour_filtered _ _ _ T x (ltac:(auto)) I).
Qed.

(** *** Uses (C61) *)
Lemma kept_filter e v L s1 x (l : list string) : within (own_bounds e v L) s1 -> unnamed v x -> In x l ->
  In x (filter (fun m => negb (mem m (s_user_defs s1))) l).
Proof.
  intros W U I. apply filter_In. split; [exact I|]. apply negb_true_iff, mem_false. intros J. exact (own_unnamed e v L x U (proj1 W x J)).
Qed.
Ltac grow := match goal with G : grew _ _ _ |- _ => destruct G as (?G & ?G & ?G & ?G & ?G & ?G & ?G & ?G & ?G & ?G & _); cbn; eauto end.
Ltac own := first [apply own_unnamed | apply own_untouched | apply own_alias_none | apply own_alias | apply own_import_none | apply own_import | apply own_loaded].
Ltac use T R P H :=
  let Bn := fresh "Bn" in
  pose proof (proj1 (reached_visited _ _ _ _ R)) as Bn;
  edestruct (reached_found _ _ _ _ P _ T R) as (a & b & s1 & M & G & W & o & ->);
  [apply node_visit; [exact Bn|]; let E := fresh in intros k u p fs ks E F H1 H2 H3 H4; subst; eapply H; try eassumption; own|].
Lemma reached_loads e v L n m s : tour e v = Ok s -> reached e v L n -> loads e n m -> reportable e v m -> In m (s_modules s).
Proof.
  intros T R D Rp. use T R (fun _ s : st => In m (s_modules s)) loads_handler.
  cbn. apply (kept_filter e v []); [exact W|exact (proj1 Rp)|]. exact (proj1 (proj2 G) _ M).
Qed.
Lemma reached_mentions e v L n m s : tour e v = Ok s -> reached e v L n -> mentions e v L n m -> reportable e v m ->
  has_key m mod_mem_reqs_x = true -> In m (s_members s).
Proof.
  intros T R D Rp K. use T R (fun _ s : st => In m (s_members s)) mentions_handler.
  cbn [s_members u_out u_members u_modules]. apply (kept_filter e v []); [exact W|exact (proj1 Rp)|]. exact (proj1 (proj2 (proj2 G)) _ M).
Qed.
Lemma reached_keyword e v L n w f k s : tour e v = Ok s -> reached e v L n -> keyword_of e v L n w f k -> In (f, k) (s_kwargs s).
Proof.
  intros T R K. destruct (reached_found _ _ _ _ _ _ T R (keyword_recorded e v L n w f k (proj1 (reached_visited _ _ _ _ R)) K))
    as (a & b & s1 & M & G & W & o & ->). grow.
Qed.
Lemma reached_date e v L n d s : tour e v = Ok s -> reached e v L n -> formats_date e n d -> In d (s_strftimes s).
Proof. intros T R D. use T R (fun _ s : st => In d (s_strftimes s)) date_handler. grow. Qed.
Lemma reached_bytes e v L n d s : tour e v = Ok s -> reached e v L n -> formats_bytes n d -> In d (s_bytesdirs s).
Proof. intros T R D. use T R (fun _ s : st => In d (s_bytesdirs s)) bytes_handler. grow. Qed.
Lemma reached_typecode e v L n d s : tour e v = Ok s -> reached e v L n -> gives_typecode e v L n d -> In d (s_typecodes s).
Proof. intros T R D. use T R (fun _ s : st => In d (s_typecodes s)) typecode_handler. grow. Qed.
Lemma reached_handler e v L n c s : tour e v = Ok s -> reached e v L n -> gives_handler e v L n c -> In c (s_cehs s).
Proof. intros T R D. use T R (fun _ s : st => In c (s_cehs s)) ceh_handler. grow. Qed.
Lemma reached_encoding e v L n c s : tour e v = Ok s -> reached e v L n -> gives_encoding e v L n c -> In c (s_cencs s).
Proof. intros T R D. use T R (fun _ s : st => In c (s_cencs s)) cenc_handler. grow. Qed.
Lemma reached_decorator e v L n d s : tour e v = Ok s -> reached e v L n -> has_decorator e v L n d -> reportable e v d ->
  has_key d decorator_user_functions = true -> In d (s_ufds s).
Proof. intros T R D Rp K. use T R (fun _ s : st => In d (s_ufds s)) deco_handler. grow. Qed.

Lemma assoc_has_key {A} x (l : list (string * A)) y : assoc x l = Some y -> has_key x l = true.
Proof. unfold has_key. intros ->. reflexivity. Qed.
Lemma in_has_key {A} x (l : list (string * A)) y : In (x, y) l -> has_key x l = true.
Proof.
  intros I. unfold has_key. destruct (assoc x l) eqn:E; [reflexivity|]. apply assoc_None in E. destruct E.
  apply in_map_iff. exists (x, y). split; [reflexivity|exact I].
Qed.
Lemma by_name_covers k n : by_name k n -> covers k n.
Proof. destruct k; cbn; [auto|]. intros ->. exists "", "". rewrite app_nil_s. reflexivity. Qed.
Lemma reached_triggered e v L n bps m s : tour e v = Ok s -> reached e v L n -> asks e v L bps n m -> triggered bps s m.
Proof.
  intros T S A. destruct A as [f C D|f C D|x U R Q|x U R Q|w f k U Q|d U Q|d U Q|d U Q|h U Q|x k U Q N|d U R Q].
  - exact (trig_feature _ _ f _ (reached_shown _ _ _ _ _ _ T S C) D).
  - exact (trig_feature _ _ f _ (reached_stood _ _ _ _ _ _ T S C) D).
  - exact (trig_module _ _ x _ (reached_loads _ _ _ _ _ _ T S U R) Q).
  - refine (trig_member _ _ x _ (reached_mentions _ _ _ _ _ _ T S U R _) Q). unfold mem_req in Q.
    destruct (assoc x mod_mem_reqs_x) as [y|] eqn:E; [|discriminate]. exact (assoc_has_key _ _ _ E).
  - exact (trig_kwarg _ _ f k _ (reached_keyword _ _ _ _ _ _ _ _ T S U) Q).
  - exact (trig_strftime _ _ d _ (reached_date _ _ _ _ _ _ T S U) Q).
  - exact (trig_bytes _ _ d _ (reached_bytes _ _ _ _ _ _ T S U) Q).
  - exact (trig_typecode _ _ d _ (reached_typecode _ _ _ _ _ _ T S U) Q).
  - exact (trig_handler _ _ h _ (reached_handler _ _ _ _ _ _ T S U) Q).
  - exact (trig_encoding _ _ x k _ (reached_encoding _ _ _ _ _ _ T S U) Q (by_name_covers _ _ N)).
  - exact (trig_deco _ _ d _ (reached_decorator _ _ _ _ _ _ T S U R (in_has_key _ _ _ Q)) Q).
Qed.
(** What is seen is reached. *)
Lemma reached_seen e v L w n : reached e v L w -> seen e false n w -> reached e v L n.
Proof.
  intros R S. revert L R. induction S as [_|w f x O C S IH|w y f x K C I Ch S IH]; intros L R; [exact R| |].
  - apply IH. destruct C as (N & y & I & [->|(l & -> & J)]).
    + exact (rc_field _ _ _ _ _ _ R O I N).
    + destruct (in_split _ _ J) as (l1 & l2 & ->). exact (rc_item _ _ _ _ _ _ _ _ [] R O I N (fun j (H : In j []) => match H with end)).
  - apply IH. exact (rc_member _ _ _ _ _ _ _ R K C I Ch).
Qed.
Lemma seen_reached e v n : is_node v = true -> seen e false n v -> reached e v [] n.
Proof. intros N. apply reached_seen, rc_root, N. Qed.
