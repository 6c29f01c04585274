(** A visit of a tree visits what is seen from it, and forgets nothing it found there. Lemmas for C38, C40, C61. *)
From Verif Require Import PyBase PyLemmas Utility RulesData Rules Config Formats Paths AstKinds Ast State Visitor
  Spec_Base Spec_Visitor Spec_Same Spec_MinVersions Spec_Seen Proof_Shapes Proof_Runs Proof_Handlers Proof_Brackets Proof_Tour Proof_Claims Proof_Scopes Proof_Same Proof_Forms.

(** Bounds on what a state knows: names with a meaning, names given to modules, assigned names, names
    imported from modules, ellipses in slices; and what it knows at least: new names, imported names,
    modules, assigned names, names with types. *)
Record bounds : Type := mkBounds {
  b_def : string -> Prop;
  b_ali : string -> string -> Prop;
  b_asg : string -> Prop;
  b_imp : string -> string -> Prop;
  b_ell : N -> Prop;
  b_has_ali : string -> Prop;
  b_has_imp : string -> Prop;
  b_has_mod : string -> Prop;
  b_res : string -> string -> Prop;
  b_has_res : string -> Prop;
  b_has_type : string -> string -> Prop
}.
Definition typed (l : list (string * list string)) (x t : string) : Prop := exists ts, assoc x l = Some ts /\ In t ts.
Definition within (B : bounds) (s : st) : Prop :=
  (forall x, In x (s_user_defs s) -> b_def B x) /\ (forall x m, In (x, m) (s_module_as_name s) -> b_ali B x m) /\
  (forall x, In x (map fst (s_name_res s)) -> b_asg B x) /\ (forall x p, In (x, p) (s_import_mem_mod s) -> b_imp B x p) /\
  (forall u, In u (s_ellipsis s) -> b_ell B u) /\
  (forall x, b_has_ali B x -> In x (map fst (s_module_as_name s))) /\
  (forall x, b_has_imp B x -> In x (map fst (s_import_mem_mod s))) /\ (forall x, b_has_mod B x -> In x (s_modules s)) /\
  (forall x t, In (x, t) (s_name_res s) -> b_res B x t) /\ (forall x, b_has_res B x -> In x (map fst (s_name_res s))) /\
  (forall x t, b_has_type B x t -> typed (s_name_res_type s) x t).

(** Nothing found is lost; with [outer], no name either. *)
Definition grew (outer : bool) (s s' : st) : Prop :=
  incl (s_flags s) (s_flags s') /\ incl (s_modules s) (s_modules s') /\ incl (s_members s) (s_members s') /\
  incl (s_kwargs s) (s_kwargs s') /\ incl (s_ufds s) (s_ufds s') /\ incl (s_strftimes s) (s_strftimes s') /\
  incl (s_bytesdirs s) (s_bytesdirs s') /\ incl (s_typecodes s) (s_typecodes s') /\ incl (s_cehs s) (s_cehs s') /\
  incl (s_cencs s) (s_cencs s') /\ incl (map fst (s_module_as_name s)) (map fst (s_module_as_name s')) /\
  incl (map fst (s_import_mem_mod s)) (map fst (s_import_mem_mod s')) /\ incl (map fst (s_name_res s)) (map fst (s_name_res s')) /\
  (forall x t, typed (s_name_res_type s) x t -> typed (s_name_res_type s') x t) /\ (outer = true -> incl (s_user_defs s) (s_user_defs s')).

Lemma grew_refl b s : grew b s s.
Proof. repeat split; intros; try apply incl_refl; assumption. Qed.
Lemma grew_tran b s1 s2 s3 : grew b s1 s2 -> grew b s2 s3 -> grew b s1 s3.
Proof.
  intros (A1 & A2 & A3 & A4 & A5 & A6 & A7 & A8 & A9 & A10 & A12 & A13 & A14 & A15 & A11) (C1 & C2 & C3 & C4 & C5 & C6 & C7 & C8 & C9 & C10 & C12 & C13 & C14 & C15 & C11).
  repeat split; try (eapply incl_tran; eassumption); auto. intros H. eapply incl_tran; auto.
Qed.
Lemma grew_weak b s s' : grew true s s' -> grew b s s'.
Proof. intros (A1 & A2 & A3 & A4 & A5 & A6 & A7 & A8 & A9 & A10 & A12 & A13 & A14 & A15 & A11). repeat split; auto. Qed.

Definition step (B : bounds) (a : act) : Prop := forall s s', within B s -> a s = Ok s' -> within B s' /\ grew true s s'.
Definition marks (f : flag) (_ s : st) : Prop := In f (s_flags s).
Definition passes (outer : bool) (B : bounds) (P : st -> st -> Prop) (a : act) : Prop :=
  forall s s', within B s -> a s = Ok s' -> within B s' /\ exists s1 s2, P s1 s2 /\ grew outer s2 s'.

Lemma dict_set_In {A} k (v : A) l x y : In (x, y) (dict_set k v l) -> (x, y) = (k, v) \/ In (x, y) l.
Proof.
  induction l as [|[k' v'] r IH]; cbn; [intros [E|[]]; auto|]. destruct (k =? k')%string eqn:Q.
  - intros [E|I]; [|auto]. apply String.eqb_eq in Q as ->. auto.
  - intros [E|I]; [auto|]. destruct (IH I); auto.
Qed.
Lemma dict_set_incl {A} k (v : A) l : incl (map fst l) (map fst (dict_set k v l)).
Proof.
  intros x. induction l as [|[k' v'] r IH]; cbn; [intros []|]. destruct (k =? k')%string eqn:Q; cbn.
  - apply String.eqb_eq in Q as ->. auto.
  - intros [E|I]; [auto|]. right. auto.
Qed.
Lemma typed_set l x t ts a : incl (match assoc a l with Some l' => l' | None => [] end) ts -> typed l x t -> typed (dict_set a ts l) x t.
Proof.
  intros I (ts' & A & T). unfold typed. rewrite assoc_dict_set. destruct (x =? a)%string eqn:Q; [|exists ts'; auto].
  apply String.eqb_eq in Q as ->. rewrite A in I. exists ts. auto.
Qed.
Ltac grown := repeat split; cbn; auto using incl_refl, incl_appl, incl_tl, @dict_set_incl.

Section Steps.
  Variables (e : env) (B : bounds).
  Notation step := (step B).

  Lemma step_nop : step nop.
  Proof. intros s s' W E. injection E as <-. split; [exact W|apply grew_refl]. Qed.
  Lemma step_fail x : step (fail x).
  Proof. intros s s' W E. discriminate. Qed.
  Lemma step_seq a b : step a -> step b -> step (a >> b).
  Proof.
    intros X Y s s' W E. destruct (seq_ok _ _ _ _ E) as (s1 & E1 & E2). destruct (X _ _ W E1) as [W1 G1].
    destruct (Y _ _ W1 E2) as [W2 G2]. split; [exact W2|exact (grew_tran _ _ _ _ G1 G2)].
  Qed.
  Lemma step_when b a : (b = true -> step a) -> step (when b a).
  Proof. destruct b; [auto|]. intros _. apply step_nop. Qed.
  Lemma step_rd f : (forall s, within B s -> step (f s)) -> step (rd f).
  Proof. intros F s s' W E. exact (F s W s s' W E). Qed.
  Lemma step_with_res {A} (m : res A) f : (forall a, m = Ok a -> step (f a)) -> step (with_res m f).
  Proof. intros F. destruct m; [apply F; reflexivity|apply step_fail]. Qed.
  Lemma step_each {A} (f : A -> act) l : (forall x, In x l -> step (f x)) -> step (each f l).
  Proof.
    induction l as [|x r IH]; intros F; [apply step_nop|]. cbn [each]. apply step_seq; [apply F; left; reflexivity|].
    apply IH. intros y I. apply F. right. exact I.
  Qed.
  Lemma step_scoped a : step a -> step (scoped a).
  Proof.
    intros X s s' W E. unfold scoped in E. destruct (a s) as [s1|] eqn:E1; [|discriminate]. injection E as <-.
    destruct (X _ _ W E1) as [(W1 & W2 & W3 & W4 & W5) (G1 & G2 & G3 & G4 & G5 & G6 & G7 & G8 & G9 & G10 & G12 & G13 & G14 & G15 & _)].
    split; [|repeat split; cbn; auto; intros _; apply incl_refl]. split; [exact (proj1 W)|]. cbn. auto.
  Qed.
  Lemma step_no_line l a : (~ In l (e_nolines e) -> step a) -> step (unless_no_line e l a).
  Proof.
    intros F. unfold unless_no_line, is_no_line. destruct (existsb (Z.eqb l) (e_nolines e)) eqn:E; [apply step_nop|].
    apply F. intros I. apply Bool.not_true_iff_false in E. apply E. apply existsb_exists. exists l. split; [exact I|apply Z.eqb_refl].
  Qed.
  Lemma step_print lv m en li ve pl : step (verbose_print_v e lv m en li ve pl).
  Proof.
    intros s s' W E. destruct (print_out _ _ _ _ _ _ _ _ _ E) as (o & ->). split; [exact W|]. repeat split; cbn; auto using incl_refl.
  Qed.
  Lemma step_flag f : step (set_flag f).
  Proof.
    intros s s' W E. unfold set_flag, upd in E. injection E as <-. destruct (existsb _ _); [split; [exact W|apply grew_refl]|].
    split; [exact W|]. repeat split; cbn; auto using incl_refl, incl_tl.
  Qed.
  Lemma step_user_def x : b_def B x -> step (add_user_def x).
  Proof.
    intros D s s' (W1 & W) E. unfold add_user_def, upd in E. injection E as <-. split.
    - split; [|exact W]. cbn. intros y I. apply set_add_In in I as [->|I]; auto.
    - repeat split; cbn; auto using incl_refl, set_add_incl.
  Qed.
  Lemma step_alias a m : b_ali B a m -> step (upd (fun s => u_module_as_name (dict_set a m (s_module_as_name s)) s)).
  Proof.
    intros D s s' (W1 & W2 & W3 & W4 & W5 & W6 & W) E. unfold upd in E. injection E as <-. split; [|grown].
    split; [exact W1|]. split; [|repeat (split; [assumption|]); split; [|exact W]]; cbn.
    - intros x y I. apply dict_set_In in I as [I|I]; [injection I as -> ->; exact D|auto].
    - intros x I. apply dict_set_incl, W6, I.
  Qed.
  Lemma step_imported a m : b_imp B a m -> step (upd (fun s => u_import_mem_mod (dict_set a m (s_import_mem_mod s)) s)).
  Proof.
    intros D s s' (W1 & W2 & W3 & W4 & W5 & W6 & W7 & W) E. unfold upd in E. injection E as <-. split; [|grown].
    repeat (split; [assumption|]). split; [|repeat (split; [assumption|]); split; [|exact W]]; cbn.
    - intros x y I. apply dict_set_In in I as [I|I]; [injection I as -> ->; exact D|auto].
    - intros x I. apply dict_set_incl, W7, I.
  Qed.
  Lemma step_name_res a m : b_asg B a -> b_res B a m -> step (add_name_res a m).
  Proof.
    intros D R s s' (W1 & W2 & W3 & W4 & W5 & W6 & W7 & W8 & W9 & W10 & W) E. unfold add_name_res, upd in E. injection E as <-. split; [|grown].
    do 2 (split; [assumption|]). split; [|repeat (split; [assumption|]); split; [|split; [|exact W]]]; cbn.
    - intros y I. apply dict_set_keys in I as [->|I]; auto.
    - intros x t I. apply dict_set_In in I as [I|I]; [injection I as -> ->; exact R|auto].
    - intros x I. apply dict_set_incl, W10, I.
  Qed.
  Lemma step_name_res_type a b : step (add_name_res_type a b).
  Proof.
    intros s s' (W1 & W2 & W3 & W4 & W5 & W6 & W7 & W8 & W9 & W10 & W) E. unfold add_name_res_type, upd in E. injection E as <-.
    assert (T : forall x t, typed (s_name_res_type s) x t ->
              typed (dict_set a (set_add b (match assoc a (s_name_res_type s) with Some l => l | None => [] end)) (s_name_res_type s)) x t).
    { intros x t. apply typed_set, set_add_incl. }
    split; [repeat (split; [assumption|]); cbn; auto|]. repeat split; cbn; auto using incl_refl.
  Qed.
  Lemma step_ellipsis l : (forall u, In u l -> b_ell B u) -> step (upd (fun s => u_ellipsis (s_ellipsis s ++ l) s)).
  Proof.
    intros D s s' (W1 & W2 & W3 & W4 & W5 & W) E. unfold upd in E. injection E as <-. split; [|grown].
    repeat (split; [assumption|]). split; [|exact W]. cbn. intros u I. apply in_app_or in I as [I|I]; auto.
  Qed.
  Lemma step_found l : step (upd (fun s => u_modules (s_modules s ++ [l]) s)).
  Proof.
    intros s s' (W1 & W2 & W3 & W4 & W5 & W6 & W7 & W8 & W) E. unfold upd in E. injection E as <-. split; [|grown].
    repeat (split; [assumption|]). split; [|exact W]. cbn. intros x I. apply in_or_app. left. auto.
  Qed.
  (** Updates of the rest of the state. *)
  Lemma step_upd f : (forall s, within B (f s) <-> within B s) -> (forall s, grew true s (f s)) -> step (upd f).
  Proof. intros W G s s' H E. injection E as <-. split; [apply W, H|apply G]. Qed.
End Steps.

Ltac t1 :=
  lazymatch goal with
  | |- step _ nop => apply step_nop
  | |- step _ (fail _) => apply step_fail
  | |- step _ (_ >> _) => apply step_seq
  | |- step _ (when _ _) => apply step_when; intros ?C
  | |- step _ (rd _) => apply step_rd; intros ?s ?W
  | |- step _ (scoped _) => apply step_scoped
  | |- step _ (with_res _ _) => apply step_with_res; intros ?r ?Er
  | |- step _ (unless_no_line _ _ _) => apply step_no_line; intros ?NL
  | |- step _ (each _ _) => apply step_each; intros ?x ?I
  | |- step _ (verbose_print_v _ _ _ _ _ _ _) => apply step_print
  | |- step _ (vv _ _ _) => apply step_print
  | |- step _ (vv_pl _ _ _ _) => apply step_print
  | |- step _ (vvl _ _ _ _) => apply step_print
  | |- step _ (vvl_pl _ _ _ _) => apply step_print
  | |- step _ (vv_msg _ _) => apply step_print
  | |- step _ (vvl_msg _ _ _) => apply step_print
  | |- step _ (vvv _ _ _) => apply step_print
  | |- step _ (vvvv _ _) => apply step_print
  | |- step _ (set_flag _) => apply step_flag
  | |- step _ (add_user_def _) => apply step_user_def
  | |- step _ (add_name_res _ _) => apply step_name_res
  | |- step _ (upd (fun s => u_module_as_name _ s)) => apply step_alias
  | |- step _ (upd (fun s => u_import_mem_mod _ s)) => apply step_imported
  | |- step _ (upd (fun s => u_modules _ s)) => apply step_found
  | |- step _ (upd (fun s => u_ellipsis _ s)) => apply step_ellipsis
  | |- step _ (upd _) => apply step_upd; [intros ?s; reflexivity|intros ?s; solve [grown]]
  | |- step _ (if ?b then _ else _) => let C := fresh "C" in destruct b eqn:C
  | |- step _ (match ?x with _ => _ end) => let Q := fresh "Q" in destruct x eqn:Q
  end.
Ltac tt_ := repeat t1.

Section Nodes.
  Variables (e : env) (B : bounds).
  Notation step := (step B).

  Lemma step_add_module m l c : step (add_module e m l c).
  Proof. unfold add_module, add_lc. tt_. Qed.
  Lemma step_add_member m l c : step (add_member e m l c).
  Proof. unfold add_member, add_lc. tt_. Qed.
  Lemma step_add_kwargs f k l : step (add_kwargs e f k l).
  Proof. unfold add_kwargs, add_lc. tt_. Qed.
  Lemma step_ufd d l : step (add_user_func_deco e d l).
  Proof. unfold add_user_func_deco, add_lc. tt_. Qed.
  Lemma step_typecodes a l c : step (add_typecodes a l c).
  Proof. unfold add_typecodes, add_array_typecode, add_lc. tt_. Qed.
  Lemma step_lc_val v l : step (add_lc_val v l).
  Proof. unfold add_lc_val, add_lc. tt_. Qed.
  Lemma step_codecs f a k l : step (check_codecs_function e f a k l).
  Proof.
    unfold check_codecs_function, add_codecs_error_handler, add_codecs_encoding, when_const, add_ceh, add_cenc. tt_; apply step_lc_val.
  Qed.
  Lemma step_user_def_node v : (forall x, gives v x -> b_def B x) -> step (add_user_def_node v).
  Proof.
    intros D. destruct v; cbn [add_user_def_node]; tt_.
    - apply D. left. reflexivity.
    - apply D. right. split; [split; reflexivity|exact C].
  Qed.
  Lemma step_target_defs v : (forall x, bound x v -> b_def B x) -> step (add_target_defs v).
  Proof.
    intros D. unfold add_target_defs. tt_. apply step_user_def_node. intros y G. apply D.
    exact (proj1 (target_bound _ _) (ex_intro _ _ (conj I G))).
  Qed.
  Lemma step_assign ts w : (forall t a, In t ts -> is_name a t -> b_asg B a) ->
    (forall t a man x o, In t ts -> is_name a t -> (forall y m, In (y, m) man -> b_ali B y m) -> assigned_name man w = Ok (Some x, o) -> b_res B a x) ->
    step (add_name_res_assign ts w).
  Proof.
    intros D R. unfold add_name_res_assign. tt_; try apply step_name_res_type; try (apply (D _ _ I), name_id_is; assumption).
    eapply (R x); [exact I|apply name_id_is; eassumption| |eassumption]. apply W.
  Qed.
  Lemma step_names w : step (add_names_as_members e w).
  Proof. unfold add_names_as_members. tt_. apply step_add_member. Qed.
  Lemma step_match n : step (generic_match e n).
  Proof. unfold generic_match. tt_. Qed.
  Lemma step_generic v ks : step (visit_fields ks) -> step (generic_visit e v ks).
  Proof. intros F. unfold generic_visit. tt_. exact F. Qed.
End Nodes.

(** ** Passing through *)
Section Passing.
  Variables (e : env) (outer : bool) (B : bounds) (P : st -> st -> Prop).
  Notation step := (step B).
  Notation passes := (passes outer B P).

  Lemma passes_seq_l a b : passes a -> step b -> passes (a >> b).
  Proof.
    intros X S s s' W E. destruct (seq_ok _ _ _ _ E) as (s1 & E1 & E2). destruct (X _ _ W E1) as (W1 & s2 & s3 & Q & G).
    destruct (S _ _ W1 E2) as [W' G']. split; [exact W'|]. exists s2, s3. split; [exact Q|].
    apply (grew_tran _ _ _ _ G), grew_weak, G'.
  Qed.
  Lemma passes_seq_r a b : step a -> passes b -> passes (a >> b).
  Proof.
    intros S X s s' W E. destruct (seq_ok _ _ _ _ E) as (s1 & E1 & E2). destruct (S _ _ W E1) as [W1 _]. exact (X _ _ W1 E2).
  Qed.
  Lemma passes_when b a : b = true -> passes a -> passes (when b a).
  Proof. intros ->. auto. Qed.
  Lemma passes_rd f : (forall s, within B s -> passes (f s)) -> passes (rd f).
  Proof. intros F s s' W E. exact (F s W s s' W E). Qed.
  Lemma passes_with_res {A} (m : res A) f : (forall a, m = Ok a -> passes (f a)) -> passes (with_res m f).
  Proof. intros F. destruct m; [apply F; reflexivity|]. intros s s' W E. discriminate. Qed.
  Lemma passes_each {A} (f : A -> act) l x : In x l -> passes (f x) -> (forall y, In y l -> step (f y)) -> passes (each f l).
  Proof.
    induction l as [|y r IH]; intros I X S; [destruct I|]. cbn [each]. destruct I as [->|I].
    - apply passes_seq_l; [exact X|]. apply step_each. intros z J. apply S. right. exact J.
    - apply passes_seq_r; [apply S; left; reflexivity|]. apply IH; [exact I|exact X|]. intros z J. apply S. right. exact J.
  Qed.
  Lemma passes_scoped a : outer = false -> passes a -> passes (scoped a).
  Proof.
    intros O X s s' W E. unfold scoped in E. destruct (a s) as [s1|] eqn:E1; [|discriminate]. injection E as <-.
    destruct (X _ _ W E1) as ((W1 & W2 & W3 & W4 & W5) & s2 & s3 & Q & G). split.
    - split; [exact (proj1 W)|]. cbn. auto.
    - exists s2, s3. split; [exact Q|]. destruct G as (G1 & G2 & G3 & G4 & G5 & G6 & G7 & G8 & G9 & G10 & G12 & G13 & G14 & G15 & _).
      repeat split; cbn; auto. rewrite O. discriminate.
  Qed.
  Lemma passes_no_line l a : ~ In l (e_nolines e) -> passes a -> passes (unless_no_line e l a).
  Proof.
    intros N X. unfold unless_no_line, is_no_line. destruct (existsb (Z.eqb l) (e_nolines e)) eqn:C; [|exact X]. destruct N.
    apply existsb_exists in C as (y & I & C). apply Z.eqb_eq in C as ->. exact I.
  Qed.
  Lemma passes_generic v ks : passes (visit_fields ks) -> passes (generic_visit e v ks).
  Proof.
    intros X. unfold generic_visit. do 3 (apply passes_seq_r; [tt_|]). apply passes_seq_l; [exact X|tt_].
  Qed.
  Lemma passes_here a : (forall s s', within B s -> a s = Ok s' -> P s s') -> step a -> passes a.
  Proof.
    intros X S s s' W E. destruct (S _ _ W E) as [W' _]. split; [exact W'|]. exists s, s'. split; [exact (X _ _ W E)|apply grew_refl].
  Qed.
End Passing.

Lemma is_name_id a x : is_name a x -> name_id x = Some a.
Proof. intros [K I]. apply isa_node in K as (u & p & fs & ->). cbn. f_equal. exact I. Qed.
Lemma kin k l : existsb (kind_eqb k) l = true -> In k l.
Proof. intros H. apply existsb_exists in H as (j & I & Q). apply kind_eqb_eq in Q as ->. exact I. Qed.

(** What [v] itself does stays within the bounds. *)
Definition fits (B : bounds) (v : pyval) : Prop :=
  (forall x, defines v x -> b_def B x) /\ (forall a, assigns v a -> b_asg B a) /\ (forall p x, imports_from v p x -> b_imp B x p) /\
  (forall a m, aliases v a m -> b_ali B a m) /\ (isa KSubscript v -> forall u, In u (slice_ellipses (attr "slice" v)) -> b_ell B u) /\
  (forall a t, assigns v a -> isa KFor v \/ isa KAsyncFor v -> t = "dict" -> b_res B a t) /\
  (forall a t man o, assigns v a -> (forall y m, In (y, m) man -> b_ali B y m) -> assigned_name man (attr "value" v) = Ok (Some t, o) -> b_res B a t).

Lemma errors_nodup : NoDup (map fst codecs_errors_indices).
Proof. change (NoDup (dedup (map fst codecs_errors_indices))). apply dedup_NoDup. Qed.
Lemma encodings_nodup : NoDup (map fst codecs_encodings_indices).
Proof. change (NoDup (dedup (map fst codecs_encodings_indices))). apply dedup_NoDup. Qed.

Section Node.
  Variables (e : env) (B : bounds).
  Notation step := (step B).
  Variables (k : kind) (u : N) (pos : option (Z * Z)) (fs : list (string * pyval)) (ks : list (string * ksem)).
  Notation v := (VNode k u pos fs).
  Hypothesis F : fits B v.
  Hypothesis HF : step (visit_fields ks).
  Hypothesis HD : step (visit_fields (drop_returns ks)).
  Hypothesis HT : forall x, In x (k_list (kid "finalbody" ks)) -> step (k_visit x).
  Hypothesis HG : k = KClassDef -> forall x, In x (k_list (kid "body" ks)) -> step (k_gvisit x).

  Lemma step_generic_here w : step (generic_visit e w ks).
  Proof. apply step_generic, HF. Qed.
  Lemma step_generic_drop w : step (generic_visit e w (drop_returns ks)).
  Proof. apply step_generic, HD. Qed.
  Lemma step_annotations l args : step (arg_annotations e l args).
  Proof. induction args as [|a r IH]; cbn [arg_annotations]; tt_; exact IH. Qed.

  Lemma fit_def x : defines v x -> b_def B x.
  Proof. apply F. Qed.
  Lemma fit_asname a x : k = KImport \/ k = KImportFrom -> In a (flist "names" fs) -> as_ostr (attr "asname" a) = Some x -> b_def B x.
  Proof.
    intros K I A. apply fit_def. right. left. split; [destruct K as [-> | ->]; [left|right]; reflexivity|]. exists a.
    split; [exact I|]. destruct (attr "asname" a); try discriminate. injection A as ->. reflexivity.
  Qed.
  Lemma fit_import_from a m : k = KImportFrom -> In a (flist "names" fs) -> fld "module" fs = VStr m -> b_imp B (as_str (attr "name" a)) m.
  Proof.
    intros K I M. destruct F as (_ & _ & F3 & _). apply (F3 m). split; [subst k; reflexivity|]. split; [exact M|]. exists a. auto.
  Qed.
  Lemma fit_alias a x : k = KImport -> In a (flist "names" fs) -> as_ostr (attr "asname" a) = Some x -> b_ali B x (as_str (attr "name" a)).
  Proof.
    intros K I A. destruct F as (_ & _ & _ & F4 & _). apply F4. exists a. split; [exact I|]. split.
    - destruct (attr "asname" a); try discriminate. injection A as ->. reflexivity.
    - left. split; [subst k; reflexivity|reflexivity].
  Qed.
  Lemma fit_alias_from a m x : k = KImportFrom -> In a (flist "names" fs) -> fld "module" fs = VStr m -> as_ostr (attr "asname" a) = Some x ->
    b_ali B x (m +++ "." +++ as_str (attr "name" a)).
  Proof.
    intros K I M A. destruct F as (_ & _ & _ & F4 & _). apply F4. exists a. split; [exact I|]. split.
    - destruct (attr "asname" a); try discriminate. injection A as ->. reflexivity.
    - right. split; [subst k; reflexivity|]. exists m. split; [exact M|reflexivity].
  Qed.
  Lemma fit_name : k = KFunctionDef \/ k = KAsyncFunctionDef \/ k = KClassDef -> b_def B (fstr "name" fs).
  Proof. intros K. apply fit_def. left. split; [destruct K as [-> |[-> | ->]]; cbv; auto|]. reflexivity. Qed.

  Lemma fit_targets t : k = KAssign -> In t (flist "targets" fs) -> forall x, bound x t -> b_def B x.
  Proof. intros K I x X. apply fit_def. do 2 right. left. split; [subst k; reflexivity|]. exists t. auto. Qed.
  Lemma fit_gives : k = KAugAssign \/ k = KAnnAssign \/ k = KNamedExpr -> forall x, gives (fld "target" fs) x -> b_def B x.
  Proof. intros K x X. apply fit_def. do 3 right. left. split; [destruct K as [-> |[-> | ->]]; cbv; auto|exact X]. Qed.
  Lemma fit_for : k = KFor \/ k = KAsyncFor -> forall x, bound x (fld "target" fs) -> b_def B x.
  Proof. intros K x X. apply fit_def. do 4 right. left. split; [destruct K as [-> | ->]; cbv; auto|exact X]. Qed.
  Lemma fit_with i : k = KWith \/ k = KAsyncWith -> In i (flist "items" fs) -> forall x, bound x (attr "optional_vars" i) -> b_def B x.
  Proof. intros K I x X. apply fit_def. do 5 right. left. split; [destruct K as [-> | ->]; cbv; auto|]. exists i. auto. Qed.
  Lemma fit_except : k = KExceptHandler -> forall x, gives (fld "name" fs) x -> b_def B x.
  Proof. intros K x X. apply fit_def. do 6 right. left. split; [subst k; reflexivity|exact X]. Qed.
  Lemma fit_comp c : k = KListComp \/ k = KGeneratorExp \/ k = KSetComp \/ k = KDictComp -> In c (flist "generators" fs) ->
    forall x, bound x (attr "target" c) -> b_def B x.
  Proof.
    intros K I x X. apply fit_def. do 7 right. left. split; [destruct K as [-> |[-> |[-> | ->]]]; cbv; auto|]. exists c. auto.
  Qed.
  Lemma fit_arg a : k = Karguments ->
    In a (flist "args" fs ++ flist "posonlyargs" fs ++ flist "kwonlyargs" fs ++ [fld "vararg" fs; fld "kwarg" fs]) ->
    forall x, gives (attr "arg" a) x -> b_def B x.
  Proof.
    intros K I x X. apply fit_def. do 8 right. split; [subst k; reflexivity|]. exists a. split; [exact X|].
    apply in_app_or in I as [I|I]; [auto|]. apply in_app_or in I as [I|I]; [auto|]. apply in_app_or in I as [I|I]; [auto|].
    destruct I as [I|[I|[]]]; symmetry in I; auto.
  Qed.
  Lemma fit_asg t a : k = KAssign -> In t (flist "targets" fs) -> is_name a t -> b_asg B a.
  Proof. intros K I N. apply F. left. split; [subst k; reflexivity|]. exists t. auto. Qed.
  Lemma fit_asg1 a : k = KAugAssign \/ k = KAnnAssign \/ k = KFor \/ k = KAsyncFor -> is_name a (fld "target" fs) -> b_asg B a.
  Proof. intros K N. apply F. right. split; [destruct K as [-> |[-> |[-> | ->]]]; cbv; auto|exact N]. Qed.
  Lemma fit_loop a : k = KFor \/ k = KAsyncFor -> is_name a (fld "target" fs) -> b_res B a "dict".
  Proof.
    intros K N. destruct F as (_ & _ & _ & _ & _ & F6 & _). apply F6; [|destruct K as [-> | ->]; cbv; auto|reflexivity].
    right. split; [destruct K as [-> | ->]; cbv; auto|exact N].
  Qed.
  Lemma fit_res t a man x o : k = KAssign -> In t (flist "targets" fs) -> is_name a t -> (forall y m, In (y, m) man -> b_ali B y m) ->
    assigned_name man (fld "value" fs) = Ok (Some x, o) -> b_res B a x.
  Proof.
    intros K I N M A. destruct F as (_ & _ & _ & _ & _ & _ & F7). apply (F7 a x man o); try assumption.
    left. split; [subst k; reflexivity|]. exists t. auto.
  Qed.
  Lemma fit_res1 a man x o : k = KAugAssign \/ k = KAnnAssign -> is_name a (fld "target" fs) -> (forall y m, In (y, m) man -> b_ali B y m) ->
    assigned_name man (fld "value" fs) = Ok (Some x, o) -> b_res B a x.
  Proof.
    intros K N M A. destruct F as (_ & _ & _ & _ & _ & _ & F7). apply (F7 a x man o); try assumption.
    right. split; [destruct K as [-> | ->]; cbv; auto|exact N].
  Qed.

  Ltac leaf :=
    lazymatch goal with
    | |- step (generic_visit _ _ _) => first [apply step_generic_here | apply step_generic_drop]
    | |- step (add_module _ _ _ _) => apply step_add_module
    | |- step (add_member _ _ _ _) => apply step_add_member
    | |- step (add_kwargs _ _ _ _) => apply step_add_kwargs
    | |- step (check_codecs_function _ _ _ _ _) => apply step_codecs
    | |- step (add_typecodes _ _ _) => apply step_typecodes
    | |- step (add_user_func_deco _ _ _) => apply step_ufd
    | |- step (arg_annotations _ _ _) => apply step_annotations
    | |- step (add_names_as_members _ _) => apply step_names
    | |- step (generic_match _ _) => apply step_match
    | |- step (add_name_res_type _ _) => apply step_name_res_type
    | |- step (k_visit _) => apply HT; assumption
    | |- step (k_gvisit _) => apply HG; assumption
    | |- b_def _ (fstr _ _) => apply fit_name; solve [auto]
    | |- b_def _ _ => eapply fit_asname; [auto|eassumption|eassumption]
    | |- b_ali _ _ _ => first [eapply fit_alias; eassumption | eapply fit_alias_from; eassumption]
    | |- b_imp _ _ _ => eapply fit_import_from; eassumption
    | |- b_asg _ _ => apply fit_asg1; [solve [auto]|apply name_id_is; assumption]
    | |- b_res _ _ "dict" => apply fit_loop; [solve [auto]|apply name_id_is; assumption]
    | |- step (add_target_defs _) =>
        apply step_target_defs;
        first [eapply fit_targets; eassumption | apply fit_for; solve [auto] | eapply fit_with; [solve [auto]|eassumption]
              | eapply fit_comp; [solve [auto]|eassumption]]
    | |- step (add_user_def_node _) =>
        apply step_user_def_node;
        first [apply fit_gives; solve [auto] | apply fit_except; assumption | eapply fit_arg; eassumption]
    | |- step (add_name_res_assign _ _) =>
        apply step_assign;
        [first [intros ? ? ? ?; eapply fit_asg; eassumption | intros ? ? [<-|[]] ?; eapply fit_asg1; solve [auto]]
        |first [intros ? ? ? ? ? ? ?; eapply fit_res; eassumption | intros ? ? ? ? ? [<-|[]] ?; eapply fit_res1; solve [auto]]]
    end.
  Ltac unf :=
    unfold visit_import, visit_import_from, visit_name, gen_unpacking, check_gen_unp_seq, check_gen_unp_dict, visit_attribute,
      attr_resolve, attr_module, visit_binop, visit_constant, visit_ellipsis, visit_joinedstr, visit_keyword, visit_call,
      call_name, call_attribute, strftime_arg, add_strftime_directive, when_const, check_gen_unp_call, push_fn, pop_fn,
      add_bytes_directive, visit_assign, visit_augassign, visit_annassign, check_relaxed_decorators, check_user_func_decorators,
      visit_functiondef, visit_asyncfunctiondef, handle_functiondef, visit_await, visit_classdef, visit_namedexpr,
      visit_arguments, visit_nonlocal, visit_yieldfrom, visit_match, visit_typealias, visit_yield,
      visit_raise, visit_excepthandler, visit_setcomp, visit_dictcomp, comp_scope, visit_comprehension, visit_matmult,
      visit_continue, visit_with, visit_asyncwith, handle_with, visit_dict, visit_set, visit_seq, check_gen_unp_seq,
      check_gen_unp_dict, gen_unpacking, check_builtin_generic, visit_subscript, visit_cond, visit_asyncfor,
      handle_for, visit_while, visit_try, visit_starred, add_lc, add_arg_def, check_relaxed_decorators, check_user_func_decorators,
      check_builtin_generic.

  Lemma step_handler : step (handler e k u pos fs ks).
  Proof.
    enough (H : forall j, k = j -> step (handler e j u pos fs ks)) by exact (H k eq_refl).
    intros j K. destruct j; cbn [handler]; try apply step_nop; try apply step_generic_here.
    all: unf; tt_; try leaf.
    destruct F as (_ & _ & _ & _ & F4 & _). apply F4. subst k. reflexivity.
  Qed.

  (** *** Into the parts *)
  Section Into.
  Variables (outer : bool) (P : st -> st -> Prop).
  Notation passes := (passes outer B P).
  Variable f : string.
  Hypothesis O : opens e outer v f.
  Hypothesis PF : passes (visit_fields ks).
  Hypothesis PD : f <> "returns" -> passes (visit_fields (drop_returns ks)).

  Lemma into_generic w : passes (generic_visit e w ks).
  Proof. apply passes_generic, PF. Qed.
  Lemma into_drop w : f <> "returns" -> passes (generic_visit e w (drop_returns ks)).
  Proof. intros N. apply passes_generic, PD, N. Qed.
  Lemma not_blind j : k = j -> In j blind -> False.
  Proof. intros K I. apply (proj1 O). exists j. split; [exact I|]. subst j. apply N.eqb_refl. Qed.
  Lemma is_counted j : k = j -> In j line_tested -> counted e v.
  Proof. intros K I. apply (proj1 (proj2 O)). exists j. split; [exact I|]. subst j. apply N.eqb_refl. Qed.
  Lemma not_scope j : k = j -> In j scopes -> outer = false.
  Proof.
    intros K I. destruct outer; [|reflexivity]. destruct O as (_ & _ & _ & _ & N). destruct (N eq_refl). exists j.
    split; [exact I|]. subst j. apply N.eqb_refl.
  Qed.

  Ltac p1 :=
    lazymatch goal with
    | |- passes (?a >> ?b) =>
        lazymatch a with
        | context [generic_visit] => apply passes_seq_l; [|tt_; try leaf]
        | _ => apply passes_seq_r; [tt_; try leaf|]
        end
    | |- passes (rd _) => apply passes_rd; intros ?s ?W
    | |- passes (scoped _) => apply passes_scoped; [eapply not_scope; [eassumption|apply kin; reflexivity]|]
    | |- passes (with_res _ _) => apply passes_with_res; intros ?r ?Er
    | |- passes (unless_no_line _ _ _) => apply passes_no_line; [eapply is_counted; [eassumption|apply kin; reflexivity]|]
    | |- passes (generic_visit _ _ _) => first [apply into_generic | apply into_drop]
    | |- passes (if ?b then _ else _) => let C := fresh "C" in destruct b eqn:C
    | |- passes (match ?x with _ => _ end) => let Q := fresh "Q" in destruct x eqn:Q
    end.

  Lemma into_handler : passes (handler e k u pos fs ks).
  Proof.
    enough (H : forall j, k = j -> passes (handler e j u pos fs ks)) by exact (H k eq_refl).
    intros j K. destruct j; cbn [handler]; try apply into_generic; try (exfalso; eapply not_blind; [eassumption|apply kin; reflexivity]).
    all: unf; repeat p1.
    - exfalso. rewrite (proj1 (proj2 (proj2 O))) in C; [discriminate|]. subst k. reflexivity.
    - intros ->. apply andb_prop in C as [C _]. apply negb_true_iff in C. destruct O as (_ & _ & _ & N & _).
      rewrite N in C; [discriminate| |reflexivity]. right. subst k. reflexivity.
    - intros ->. apply andb_prop in C as [C _]. apply negb_true_iff in C. destruct O as (_ & _ & _ & N & _).
      rewrite N in C; [discriminate| |reflexivity]. left. subst k. reflexivity.
    - destruct F as (_ & _ & _ & _ & F4 & _). apply F4. subst k. reflexivity.
  Qed.

  (** What stands in a class is looked into. *)
  Lemma into_class : k = KClassDef -> counted e v -> passes (each k_gvisit (k_list (kid "body" ks))) -> passes (handler e k u pos fs ks).
  Proof.
    intros K Co X. enough (H : passes (handler e KClassDef u pos fs ks)) by (rewrite K; exact H).
    cbn [handler]. unf. apply passes_no_line; [|repeat (apply passes_seq_r; [tt_; try leaf|]); exact X]. rewrite <- K. exact Co.
  Qed.
  End Into.

  (** *** Marking features *)
  Notation sets f := (Proof_Seen.passes false B (marks f)).
  Variable V : pyval.
  Hypothesis HB : forall x, untouched V x -> ~ b_def B x /\ ~ b_asg B x /\ forall m, ~ b_ali B x m.
  Hypothesis HE : forall m, no_slice V m -> constant VEllipsis m -> ~ b_ell B (uid_of m).

  Lemma sets_flag g : sets g (set_flag g).
  Proof.
    apply passes_here; [|apply step_flag]. intros s s' _ E. injection E as <-. unfold marks.
    destruct (existsb _ (s_flags s)) eqn:Q; [|left; reflexivity]. apply existsb_exists in Q as (y & I & Y).
    unfold flag_eqb in Y. destruct (flag_eq_dec g y) as [->|]; [exact I|discriminate].
  Qed.

  Ltac m1 g :=
    lazymatch goal with
    | |- Proof_Seen.passes _ _ _ (?a >> ?b) =>
        lazymatch a with
        | context [set_flag g] => apply passes_seq_l; [|tt_; try leaf]
        | context [generic_match] => apply passes_seq_l; [|tt_; try leaf]
        | context [arg_annotations] =>
            lazymatch g with
            | FCoroutines => apply passes_seq_r; [tt_; try leaf|]
            | _ => apply passes_seq_l; [|tt_; try leaf]
            end
        | _ => apply passes_seq_r; [tt_; try leaf|]
        end
    | |- Proof_Seen.passes _ _ _ (set_flag _) => apply sets_flag
    | |- Proof_Seen.passes _ _ _ (when _ _) => apply passes_when
    | |- Proof_Seen.passes _ _ _ (rd _) => apply passes_rd; intros ?s ?W
    | |- Proof_Seen.passes _ _ _ (scoped _) => apply passes_scoped; [reflexivity|]
    | |- Proof_Seen.passes _ _ _ (with_res _ _) => apply passes_with_res; intros ?r ?Er
    | |- Proof_Seen.passes _ _ _ (unless_no_line _ _ _) => apply passes_no_line; [try assumption|]
    | |- Proof_Seen.passes _ _ _ (if ?b then _ else _) => let C := fresh "C" in destruct b eqn:C
    | |- Proof_Seen.passes _ _ _ (match ?x with _ => _ end) =>
        match goal with
        | H : x = _ |- _ => rewrite H; cbn beta iota
        | _ => let Q := fresh "Q" in destruct x eqn:Q
        end
    end.
  Ltac eqs := repeat match goal with
    | H : ?a v = _ |- _ => progress change (a v) with (a (VNode k u pos fs)) in H
    | H : context [attr ?f v] |- _ => change (attr f v) with (fld f fs) in H
    | H : context [items ?f v] |- _ => change (items f v) with (flist f fs) in H
    | H : fld ?f fs = VStr ?s |- _ =>
        lazymatch goal with
        | _ : fstr f fs = s |- _ => fail
        | _ => assert (fstr f fs = s) by (unfold fstr; rewrite H; reflexivity)
        end
    | H : named ?n ?x |- _ =>
        let u := fresh "u" in let p := fresh "p" in let c := fresh "c" in let Q := fresh "Qn" in
        destruct (named_node_eq _ _ H) as (u & p & c & Q & ?Qi); clear H
    | H : isa ?j ?x |- _ => lazymatch x with VNode _ _ _ _ => fail | _ =>
        let u := fresh "u" in let p := fresh "p" in let c := fresh "c" in let Q := fresh "Qk" in
        destruct (isa_node _ _ H) as (u & p & c & Q); clear H end
    end.
  Ltac kd := repeat match goal with
    | H : isa ?j v |- _ => lazymatch j with k => fail | _ => assert (k = j) by (symmetry; apply kind_eqb_eq, H); clear H end
    | H : function_def v |- _ => destruct H as [H|H]
    | H : with_stmt v |- _ => destruct H as [H|H]
    | H : isa _ v \/ _ |- _ => destruct H as [H|H]
    | H : function_def v \/ _ |- _ => destruct H as [H|H]
    | H : calls _ v |- _ => destruct H as [H ?]
    | H : constant _ v |- _ => destruct H as [H ?]
    | H : named _ v |- _ => destruct H as [H ?]
    | H : named _ v \/ _ |- _ => destruct H as [H|H]
    end.
  Ltac hd_ := match goal with H : k = ?j |- Proof_Seen.passes ?o ?b ?q _ =>
    enough (Proof_Seen.passes o b q (handler e j u pos fs ks)) by (rewrite H; assumption) end; cbn [handler].

  (** *** Giving names a meaning *)
  Section Binding.
  Variable x : string.
  Notation gets := (Proof_Seen.passes true B (fun _ s => In x (s_user_defs s))).
  Lemma gets_def : step (add_user_def x) -> gets (add_user_def x).
  Proof.
    intros S. apply passes_here; [|exact S]. intros s s' _ E. injection E as <-. cbn. apply set_add_In. left. reflexivity.
  Qed.
  Lemma gets_node w : (forall y, gives w y -> b_def B y) -> gives w x -> gets (add_user_def_node w).
  Proof.
    intros D G. pose proof (D x G) as Dx. destruct G as [->|S].
    - cbn [add_user_def_node]. apply gets_def, step_user_def, Dx.
    - destruct S as [N C]. destruct N as (K & I). apply isa_node in K as (u0 & p0 & fs0 & ->).
      change (attr "ctx" (VNode KName u0 p0 fs0)) with (fld "ctx" fs0) in C. cbn [add_user_def_node].
      apply passes_when; [exact C|]. change (fstr "id" fs0 = x) in I. rewrite I. apply gets_def, step_user_def, Dx.
  Qed.
  Lemma gets_target w : (forall y, bound y w -> b_def B y) -> bound x w -> gets (add_target_defs w).
  Proof.
    intros D G. apply target_bound in G as (m & I & G). apply (passes_each _ _ _ _ _ m I).
    - apply gets_node; [|exact G]. intros y Y. apply D, target_bound. exists m. split; assumption.
    - intros m' I'. apply step_user_def_node. intros y Y. apply D, target_bound. exists m'. split; assumption.
  Qed.

  Ltac b1 :=
    lazymatch goal with
    | |- gets (?a >> ?b) =>
        lazymatch a with
        | context [add_user_def] => apply passes_seq_l; [|tt_; try leaf]
        | context [add_user_def_node] => apply passes_seq_l; [|tt_; try leaf]
        | context [add_target_defs] => apply passes_seq_l; [|tt_; try leaf]
        | _ => apply passes_seq_r; [tt_; try leaf|]
        end
    | |- gets (rd _) => apply passes_rd; intros ?s ?W
    | |- gets (unless_no_line _ _ _) => apply passes_no_line; [try assumption|]
    | I : In ?a ?l |- gets (each _ ?l) => apply (passes_each _ _ _ _ _ a I); [|intros; tt_; try leaf]
    | |- gets (match ?y with _ => _ end) =>
        match goal with
        | H : y = _ |- _ => rewrite H; cbn beta iota
        | _ => let Q := fresh "Q" in destruct y eqn:Q
        end
    end.
  Lemma binds_handler : binds_here e x v -> gets (handler e k u pos fs ks).
  Proof.
    intros H. destruct H as [K C N|a K C I N|a m K C M Lv I N|t K C I N|K C N].
    all: kd; hd_; unf; repeat b1; try assumption.
    all: try (change (fstr "name" fs = x) in N; rewrite N; apply gets_def, step_user_def; rewrite <- N; leaf).
    all: try (exfalso; change (attr "module" v) with (fld "module" fs) in M; congruence).
    all: try (exfalso; rewrite N in Q; discriminate Q).
    all: try (exfalso; rewrite N in Q1; discriminate Q1).
    - rewrite N in Q. injection Q as <-. apply gets_def, step_user_def. apply fit_def. right. left. split.
      + left. cbn. rewrite H. reflexivity.
      + exists a. split; assumption.
    - change (attr "level" v) with (fld "level" fs) in Lv. destruct (fld "level" fs); try discriminate. specialize (Lv _ eq_refl).
      apply Z.ltb_lt in Q0. lia.
    - rewrite N in Q1. injection Q1 as <-. apply gets_def, step_user_def. apply fit_def. right. left. split.
      + right. cbn. rewrite H. reflexivity.
      + exists a. split; assumption.
    - apply gets_target; [|exact N]. apply (fit_targets t H I).
    - apply gets_node; [|exact N]. apply fit_gives. auto.
    - apply gets_node; [|exact N]. apply fit_gives. auto.
    - apply gets_node; [|exact N]. apply fit_gives. auto.
  Qed.
  End Binding.

  Lemma sets_annotations l args a : In a args -> attr "annotation" a <> VNone -> sets FAnnotations (arg_annotations e l args).
  Proof.
    intros I A. induction args as [|b r IH]; [destruct I|]. cbn [arg_annotations]. destruct (is_none (attr "annotation" b)) eqn:Q.
    - apply is_none_iff in Q. destruct I as [->|I]; [contradiction|]. exact (IH I).
    - apply passes_seq_l; [apply sets_flag|]. tt_; apply step_annotations.
  Qed.

  Ltac done_ :=
    match goal with
    | C : (?x =? ?y)%string = false, Q : ?x = ?y |- _ => rewrite Q, String.eqb_refl in C; discriminate C
    | C : (?x =? ?y)%string = true, Q : ?x = ?z |- _ => rewrite Q in C; discriminate C
    | C : mem ?x _ = false, Q : ?x = _ |- _ => rewrite Q in C; discriminate C
    | |- existsb is_valid_star_unpack _ = true =>
        apply existsb_exists; eexists; split; [eassumption|apply star_load_unpack; assumption]
    | |- negb (is_none _) = true => apply negb_true_iff, is_none_false; congruence
    | H : flist "items" fs = _ |- (1 <? Datatypes.length _)%nat = true => rewrite H; reflexivity
    | |- is_none_node _ = true => apply literal_none_node; assumption
    | H : _ = ?x |- is_kind _ ?x = true => rewrite <- H; reflexivity
    | H : ?x = VNode _ _ _ _ |- is_kind _ ?x = true => rewrite H; reflexivity
    | |- is_except_star _ _ _ = true => apply text_except_star; assumption
    | C : negb (is_none ?x) = true, H : ?x = VNone |- _ => rewrite H in C; discriminate C
    | |- negb (Datatypes.length ?l =? 0)%nat = true => destruct l; [contradiction|reflexivity]
    | H : ?x = VInt 1 |- _ => rewrite H; reflexivity
    | C : first_deco_line _ _ = None, I : In ?d _, H : counted _ ?d |- _ =>
        destruct (counted_first_deco _ _ _ I H) as (?l & ?Y); congruence
    | C : ann_is ?n ?x = false, H : annotates ?n ?x |- _ => rewrite (annotates_ann_is _ _ H) in C; discriminate C
    end.
  Lemma marks_plain g : In g plain_flags -> simple e g v -> sets g (handler e k u pos fs ks).
  Proof.
    intros I S. remember v as w eqn:Ew in S.
    destruct S; try (exfalso; cbv in I; intuition discriminate); clear I; subst n; kd; hd_; unf; eqs.
    all: match goal with |- Proof_Seen.passes _ _ (marks ?g) _ => repeat m1 g end.
    all: try done_.
    all: try (eapply sets_annotations; eassumption).
    all: try match goal with C : negb (is_none _) = false |- _ => apply negb_false_iff, is_none_iff in C; contradiction end.
    all: try (match goal with H : In ?d _ |- Proof_Seen.passes _ _ _ (each _ _) => apply (passes_each _ _ _ _ _ d H) end;
              [|intros; tt_]).
    all: try match goal with
      | Q : fld "func" fs = _, A : auto_field ?t, H : constant (VStr ?t) _, H' : attr "attr" (fld "func" fs) = _ |- _ =>
          rewrite Q in H, H'; rewrite (constant_str_val _ _ H) in *
      end.
    - injection Q as <-. apply auto_field_format27. assumption.
    - injection Q as <-. rewrite H2, (auto_field_contains _ H4) in C. discriminate C.
    - injection Q as <-. rewrite H2, (auto_field_contains _ H4) in C. discriminate C.
    - discriminate Q.
    - discriminate Q.
    - apply negb_true_iff, is_none_false. intros X. rewrite X in H1. destruct H1 as [[Y _]|[Y _]]; discriminate Y.
    - rewrite (not_last_needs _ _ _ star_load_unpack H1) in C. discriminate C.
    - exact (not_last_needs _ _ _ double_kw_unpack H1).
    - apply existsb_exists. eexists. split; [eassumption|]. cbn. apply negb_true_iff, is_none_false. assumption.
    - rewrite (constant_bytes _ _ H1), Qk. reflexivity.
    - destruct H1 as [Y N]. rewrite Y, (named_name_id _ _ N), Qk. reflexivity.
    - repeat m1 FRelaxedDecorators. eapply below_relaxed; eassumption.
    - repeat m1 FRelaxedDecorators. eapply below_relaxed; eassumption.
    - repeat m1 FRelaxedDecorators. eapply below_relaxed; eassumption.
    - repeat m1 FMetaclass. apply is_kw_arg. assumption.
  Qed.

  Lemma sets_literal l args a : In a args -> annotates "Literal" (attr "annotation" a) ->
    sets (if c_eval_annotations (e_cfg e) then FLiteralAnnotations else FMaybeAnnotations) (arg_annotations e l args).
  Proof.
    intros I A. induction args as [|b r IH]; [destruct I|]. cbn [arg_annotations].
    assert (L : sets (if c_eval_annotations (e_cfg e) then FLiteralAnnotations else FMaybeAnnotations)
                  (if c_eval_annotations (e_cfg e)
                   then set_flag FLiteralAnnotations >> vvl e "literal variable annotations" l (None, Some (3, 8))
                   else set_flag FMaybeAnnotations)).
    { destruct (c_eval_annotations (e_cfg e)); [apply passes_seq_l; [apply sets_flag|tt_]|apply sets_flag]. }
    destruct (is_none (attr "annotation" b)) eqn:Q.
    - apply is_none_iff in Q. destruct I as [->|I]; [|exact (IH I)]. rewrite Q in A. destruct A as [[A _]|[A _]]; discriminate A.
    - apply passes_seq_r; [apply step_flag|]. apply passes_seq_r; [apply step_print|]. destruct I as [->|I].
      + rewrite (annotates_ann_is _ _ A). exact L.
      + specialize (IH I). destruct (ann_is "Literal" (attr "annotation" b)); [exact L|].
        repeat match goal with
        | |- Proof_Seen.passes _ _ _ (rd _) => apply passes_rd; intros ?s ?W
        | |- Proof_Seen.passes _ _ _ (with_res _ _) => apply passes_with_res; intros ?r ?Er
        | |- Proof_Seen.passes _ _ _ (if _ then _ else _) => destruct (mem _ _)
        end; try exact L; exact IH.
  Qed.

  Lemma untouched_alias x s : untouched V x -> within B s -> assoc x (s_module_as_name s) = None.
  Proof.
    intros U (_ & W & _). destruct (assoc x (s_module_as_name s)) as [m|] eqn:A; [|reflexivity].
    destruct (proj2 (proj2 (HB x U)) m). apply W, assoc_In, A.
  Qed.
  Lemma untouched_def x s : untouched V x -> within B s -> mem x (s_user_defs s) = false.
  Proof.
    intros U (W & _). apply not_true_iff_false. intros M. apply mem_In in M. exact (proj1 (HB x U) (W x M)).
  Qed.
  Lemma untouched_res x s : untouched V x -> within B s -> has_key x (s_name_res s) = false.
  Proof.
    intros U (_ & _ & W & _). apply not_true_iff_false. intros M. apply has_key_In in M. exact (proj1 (proj2 (HB x U)) (W x M)).
  Qed.
  Lemma outside_ok x s r : outside_type V x -> within B s -> is_none_or_name s x = Ok r -> r = true.
  Proof.
    intros [N|(t & N & U)] W; unfold is_none_or_name.
    - rewrite (literal_none_node _ N). congruence.
    - destruct (is_none_node x); [congruence|]. destruct N as [K I]. apply isa_node in K as (u1 & p1 & fs1 & ->). cbn.
      change (fstr "id" fs1) with (as_str (attr "id" (VNode KName u1 p1 fs1))). rewrite I.
      rewrite (untouched_res _ _ U W), (untouched_def _ _ U W). cbn. congruence.
  Qed.

  Lemma sets_merge : k = KAugAssign -> counted e v -> isa KBitOr (fld "op" fs) -> isa KName (fld "target" fs) ->
    isa KDict (fld "value" fs) -> sets FDictUnionMerge (handler e k u pos fs ks).
  Proof.
    intros K Co Op T D. hd_. unfold visit_augassign. apply passes_no_line; [exact Co|].
    apply passes_seq_r; [leaf|]. intros s s' W E.
    destruct (seq_ok _ _ _ _ E) as (s2 & E2 & Er). destruct (seq_ok _ _ _ _ Er) as (s3 & E3 & E4).
    assert (S2 : step (add_name_res_assign [fld "target" fs] (fld "value" fs))) by leaf.
    destruct (S2 _ _ W E2) as [W2 _].
    assert (N : exists n, name_id (fld "target" fs) = Some n /\ assoc n (s_name_res s2) = Some "dict").
    { apply isa_node in T as (u1 & p1 & fs1 & T), D as (u2 & p2 & fs2 & D). rewrite T, D in *. cbn in E2.
      exists (fstr "id" fs1). split; [reflexivity|]. injection E2 as <-. cbn. rewrite assoc_dict_set, String.eqb_refl. reflexivity. }
    clear E E2 Er S2 W s. destruct N as (n & N & A). rewrite Op in E3. cbn [when] in E3. unfold rd in E3.
    assert (Dv : is_dict (s_name_res s2) (fld "value" fs) = true).
    { apply isa_node in D as (u2 & p2 & fs2 & ->). reflexivity. }
    assert (Dt : is_dict (s_name_res s2) (fld "target" fs) = true).
    { apply isa_node in T as (u1 & p1 & fs1 & T). rewrite T in *. injection N as <-. unfold is_dict. cbn. rewrite A. reflexivity. }
    rewrite Dv in E3. unfold with_res in E3. destruct (resolve_full_name s2 (fld "target" fs)) as [r|]; [|discriminate].
    rewrite Dt, orb_true_r in E3. cbn [when] in E3.
    assert (S3 : sets FDictUnionMerge (set_flag FDictUnionMerge >> vvl e "dict union merge (dict var |= dict)" (lineno (VNode KAugAssign u pos fs)) (None, Some (3, 9)))).
    { apply passes_seq_l; [apply sets_flag|tt_]. }
    destruct (S3 _ _ W2 E3) as (W3 & a & b & M & G). destruct (step_generic_here _ _ _ W3 E4) as [W4 G4]. split; [exact W4|].
    exists a, b. split; [exact M|]. exact (grew_tran _ _ _ _ G (grew_weak _ _ _ G4)).
  Qed.
  Lemma sets_match t : In t builtin_generic_annotation_types -> (c_eval_annotations (e_cfg e) = true -> untouched V t) ->
    sets (if c_eval_annotations (e_cfg e) then FBuiltinGeneric else FMaybeAnnotations) (generic_match e t).
  Proof.
    intros I U. unfold generic_match. destruct (c_eval_annotations (e_cfg e)); [|apply sets_flag].
    apply passes_rd. intros s W. rewrite (untouched_def t s (U eq_refl) W). apply passes_seq_l; [apply sets_flag|tt_].
  Qed.
  Lemma sets_generic t : k = KSubscript -> counted e v -> is_name t (fld "value" fs) -> In t builtin_generic_annotation_types ->
    (c_eval_annotations (e_cfg e) = true -> untouched V t) ->
    sets (if c_eval_annotations (e_cfg e) then FBuiltinGeneric else FMaybeAnnotations) (handler e k u pos fs ks).
  Proof.
    intros K Co [N I] T U. hd_. unfold visit_subscript. apply passes_no_line; [exact Co|].
    apply passes_seq_l; [|tt_; [destruct F as (_ & _ & _ & _ & F4 & _); apply F4; subst k; reflexivity|leaf]].
    unfold check_builtin_generic. apply passes_rd. intros s W. apply passes_with_res. intros r Er.
    apply isa_node in N as (u1 & p1 & fs1 & N). rewrite N in *. cbn [operand_name] in Er. injection Er as <-.
    change (as_str (attr "id" (VNode KName u1 p1 fs1))) with (fstr "id" fs1) in I. rewrite I.
    rewrite (proj2 (mem_In _ _) T). apply sets_match; assumption.
  Qed.

  Lemma marks_certain g : certain e V g v -> sets g (handler e k u pos fs ks).
  Proof.
    intros S. remember v as w eqn:Ew in S.
    destruct S; subst n; [apply marks_plain; assumption|..]; repeat match goal with H : simple _ _ v |- _ => inversion H; clear H; subst end.
    all: try (apply sets_merge; first [assumption | symmetry; apply kind_eqb_eq; assumption]).
    all: try (match goal with H : c_eval_annotations _ = ?b, T : In ?t builtin_generic_annotation_types |- _ =>
                pose proof (sets_generic t) as G; rewrite H in G; apply G; clear G end;
              first [assumption | symmetry; apply kind_eqb_eq; assumption | intros; assumption | discriminate]).
    all: kd; hd_; unf; eqs.
    all: match goal with |- Proof_Seen.passes _ _ (marks ?g) _ => repeat m1 g end.
    all: try done_; try discriminate.
    all: try match goal with A : annotates "Literal" (attr "annotation" ?a), H : c_eval_annotations _ = _
               |- Proof_Seen.passes _ _ _ (arg_annotations _ ?l ?args) =>
               pose proof (sets_literal l args a) as G; rewrite H in G; apply G; assumption end.
    all: repeat match goal with
      | U : untouched V ?x, W : within B ?s |- _ =>
          lazymatch goal with _ : assoc x (s_module_as_name s) = None |- _ => fail | _ => pose proof (untouched_alias x s U W) end
      end.
    1:{ rewrite (untouched_def _ _ H1 W) in C1. discriminate C1. }
    all: try match goal with
      | Qi : fstr "id" ?c = _, A : assoc _ (s_module_as_name _) = None, C : _ || match assoc (fstr "id" ?c) _ with _ => _ end = true |- _ =>
          rewrite Qi, A in C; discriminate C
      | Qi : fstr "id" ?c = _, Q : flist "args" fs = _, C : (fstr "id" ?c =? _)%string && _ = _ |- _ => rewrite Qi, Q in C; discriminate C
      end.
    - rewrite (literal_int_node _ H4), (literal_neg_node _ H5), (literal_int_node _ H6). reflexivity.
    - apply mem_In. assumption.
    - congruence.
    - exfalso. apply ann_is_annotates in C; [|discriminate]. pose proof (annotates_only _ _ _ C H1). discriminate.
    - apply annotates_ann_is. assumption.
    - rewrite Qk0, Qk1. reflexivity.
    - apply mem_In. assumption.
    - unfold and_res in Er. destruct (is_none_or_name s (fld "left" fs)) as [[|]|] eqn:El; try discriminate Er.
      + exact (outside_ok _ _ _ H3 W Er).
      + pose proof (outside_ok _ _ _ H2 W El). discriminate.
    - exfalso. apply existsb_exists in C as (y & I & Y). apply N.eqb_eq in Y as <-. apply (HE v); [assumption| |apply W, I].
      split; [|assumption]. rewrite H2. reflexivity.
  Qed.

  (** *** Uses of the library *)
  Section Using.
  Hypothesis HU : forall x, unnamed V x -> ~ b_def B x.
  Variable L : list pyval.
  Hypothesis HQ : forall x s, unnamed V x -> within B s -> assoc x (s_module_as_name s) = None.
  Hypothesis HR : forall x m s, renamed_as e V L x m -> within B s -> assoc x (s_module_as_name s) = Some m.
  Hypothesis HN : forall x s, not_imported V x -> within B s -> assoc x (s_import_mem_mod s) = None.
  Hypothesis HM : forall x p s, imported_as e V L x p -> within B s -> assoc x (s_import_mem_mod s) = Some p.
  Hypothesis HO : forall i m s, In i L -> loads e i m -> reportable e V m -> within B s -> In m (s_modules s).
  Notation puts P := (Proof_Seen.passes false B (fun _ s => P s)).
  Notation mod_ m := (fun s => In m (s_modules s)).
  Notation mem_ m := (fun s => In m (s_members s)).

  Lemma unnamed_def x s : unnamed V x -> within B s -> mem x (s_user_defs s) = false.
  Proof. intros U (W & _). apply mem_false. intros I. exact (HU x U (W x I)). Qed.
  Lemma stands_name b r s : stands e V L b r -> within B s -> resolve_module_name (s_module_as_name s) b = r.
  Proof.
    intros [U|m R] W; unfold resolve_module_name; [rewrite (HQ b s U W)|rewrite (HR b m s R W)]; reflexivity.
  Qed.
  Lemma reportable_not x : reportable e V x -> is_excluded (e_cfg e) x = false.
  Proof. intros [_ N]. apply mem_false, N. Qed.

  Lemma puts_module m l c : reportable e V m -> puts (mod_ m) (add_module e m l c).
  Proof.
    intros R. apply passes_here; [|apply step_add_module]. intros s s' W. unfold add_module, rd.
    rewrite (unnamed_def m s (proj1 R) W), (reportable_not m R). destruct (mem m (s_modules s)) eqn:M.
    - intros E. injection E as <-. apply mem_In, M.
    - intros E. destruct (seq_ok _ _ _ _ E) as (s1 & E1 & E2). injection E1 as <-.
      injection E2 as <-. cbn. apply in_or_app. right. left. reflexivity.
  Qed.
  Lemma puts_member m l c : reportable e V m -> has_key m mod_mem_reqs_x = true -> puts (mem_ m) (add_member e m l c).
  Proof.
    intros R K. apply passes_here; [|apply step_add_member]. intros s s' W. unfold add_member, rd.
    rewrite (unnamed_def m s (proj1 R) W), (reportable_not m R), K.
    intros E. injection E as <-. cbn [s_members u_members u_lcs]. apply in_or_app. right. left. reflexivity.
  Qed.
  Lemma puts_ufd d l : reportable e V d -> has_key d decorator_user_functions = true -> puts (fun s => In d (s_ufds s)) (add_user_func_deco e d l).
  Proof.
    intros R K. apply passes_here; [|apply step_ufd]. intros s s' W. unfold add_user_func_deco, rd.
    rewrite (unnamed_def d s (proj1 R) W), (reportable_not d R), K.
    intros E. injection E as <-. cbn [s_ufds u_ufds u_lcs]. apply in_or_app. right. left. reflexivity.
  Qed.
  Lemma puts_strftime d l : puts (fun s => In d (s_strftimes s)) (add_strftime_directive d l).
  Proof.
    apply passes_here; [|unfold add_strftime_directive, add_lc; tt_]. intros s s' W E. injection E as <-.
    cbn. apply in_or_app. right. left. reflexivity.
  Qed.
  Lemma puts_bytes d l : puts (fun s => In d (s_bytesdirs s)) (add_bytes_directive d l).
  Proof.
    apply passes_here; [|unfold add_bytes_directive, add_lc; tt_]. intros s s' W E. injection E as <-.
    cbn. apply in_or_app. right. left. reflexivity.
  Qed.
  Lemma puts_typecode d l c : puts (fun s => In d (s_typecodes s)) (add_array_typecode d l c).
  Proof.
    apply passes_here; [|unfold add_array_typecode, add_lc; tt_]. intros s s' W. unfold add_array_typecode, rd.
    destruct (mem d (s_typecodes s)) eqn:M.
    - intros E. injection E as <-. apply mem_In, M.
    - intros E. injection E as <-. cbn. apply in_or_app. right. left. reflexivity.
  Qed.
  Lemma puts_ceh c l : ~ In ("ceh=" +++ const_text c) (c_exclusions_set (e_cfg e)) -> puts (fun s => In c (s_cehs s)) (add_ceh e c l).
  Proof.
    intros N. unfold add_ceh, is_excluded_ceh. apply mem_false in N. rewrite N. apply passes_seq_l; [|apply step_lc_val].
    apply passes_here; [|tt_]. intros s s' W E. injection E as <-. cbn. apply in_or_app. right. left. reflexivity.
  Qed.
  Lemma puts_cenc c l : ~ In ("ce=" +++ const_text c) (c_exclusions_set (e_cfg e)) -> puts (fun s => In c (s_cencs s)) (add_cenc e c l).
  Proof.
    intros N. unfold add_cenc, is_excluded_ce. apply mem_false in N. rewrite N. apply passes_seq_l; [|apply step_lc_val].
    apply passes_here; [|tt_]. intros s s' W E. injection E as <-. cbn. apply in_or_app. right. left. reflexivity.
  Qed.
  Lemma step_ceh c l : step (add_ceh e c l).
  Proof. unfold add_ceh. tt_. apply step_lc_val. Qed.
  Lemma step_cenc c l : step (add_cenc e c l).
  Proof. unfold add_cenc. tt_. apply step_lc_val. Qed.
  Lemma kw_in w y l : attr "arg" w = VStr y -> In y l -> kw_arg_in l w = true.
  Proof. intros A I. unfold kw_arg_in. rewrite A. apply mem_In, I. Qed.

  Lemma puts_typecodes args a d l c : In a args -> constant (VStr d) a -> puts (fun s => In d (s_typecodes s)) (add_typecodes args l c).
  Proof.
    intros I C. apply (passes_each _ _ _ _ _ a I).
    - rewrite (constant_str_val _ _ C). apply puts_typecode.
    - intros b _. unfold add_array_typecode, add_lc. tt_.
  Qed.
  Lemma step_codecs_handler f args kws l : step (add_codecs_error_handler e f args kws l).
  Proof. unfold add_codecs_error_handler, when_const. tt_; apply step_ceh. Qed.
  Lemma step_codecs_encoding f args kws l : step (add_codecs_encoding e f args kws l).
  Proof. unfold add_codecs_encoding, when_const. tt_; apply step_cenc. Qed.
  Lemma puts_handler f place (n c : pyval) l : In (f, place) codecs_errors_indices -> literal_at [place] ["errors"] n c ->
    ~ In ("ceh=" +++ const_text c) (c_exclusions_set (e_cfg e)) ->
    puts (fun s => In c (s_cehs s)) (check_codecs_function e f (items "args" n) (items "keywords" n) l).
  Proof.
    intros I Hl N. apply passes_seq_l; [|apply step_codecs_encoding]. unfold add_codecs_error_handler.
    rewrite (In_assoc _ _ _ errors_nodup I). destruct Hl as [(i & a & [<-|[]] & A & C)|(w & y & W & Y & J & C)].
    - rewrite A. apply passes_seq_l; [|unfold when_const; tt_; apply step_ceh]. unfold when_const.
      rewrite (constant_const_val _ _ C). apply puts_ceh, N.
    - apply passes_seq_r; [unfold when_const; tt_; apply step_ceh|]. apply (passes_each _ _ _ _ _ w W).
      + apply passes_when; [exact (kw_in w y _ Y J)|]. unfold when_const. rewrite (constant_const_val _ _ C). apply puts_ceh, N.
      + intros; unfold when_const; tt_; apply step_ceh.
  Qed.
  Lemma puts_encoding f places (n c : pyval) l : In (f, places) codecs_encodings_indices ->
    ~ In ("ce=" +++ const_text c) (c_exclusions_set (e_cfg e)) ->
    (exists i a, In i places /\ nth_error (items "args" n) i = Some a /\ constant c a) \/
     (exists w k i, In w (items "keywords" n) /\ attr "arg" w = VStr k /\ In k ["encoding"; "data_encoding"; "file_encoding"] /\
        constant c (attr "value" w) /\ In i places /\ nth_error (items "args" n) i = None) ->
    puts (fun s => In c (s_cencs s)) (check_codecs_function e f (items "args" n) (items "keywords" n) l).
  Proof.
    intros I N Hl. apply passes_seq_r; [apply step_codecs_handler|]. unfold add_codecs_encoding.
    rewrite (In_assoc _ _ _ encodings_nodup I). destruct Hl as [(i & a & J & A & C)|(w & y & i & W & Y & Z & C & J & A)].
    - apply (passes_each _ _ _ _ _ i J); [|intros; unfold when_const; tt_; apply step_cenc].
      rewrite A. cbn [option_map]. rewrite (constant_const_val _ _ C). apply passes_seq_l; [apply puts_cenc, N|].
      unfold when_const; tt_; apply step_cenc.
    - apply (passes_each _ _ _ _ _ i J); [|intros; unfold when_const; tt_; apply step_cenc].
      rewrite A. cbn [option_map]. apply (passes_each _ _ _ _ _ w W); [|intros; unfold when_const; tt_; apply step_cenc].
      apply passes_when; [exact (kw_in w y _ Y Z)|]. unfold when_const. rewrite (constant_const_val _ _ C). apply puts_cenc, N.
  Qed.

  Ltac u1 key :=
    lazymatch goal with
    | |- Proof_Seen.passes _ _ _ (?a >> ?b) =>
        lazymatch a with
        | context [key] => apply passes_seq_l; [|tt_; try leaf]
        | _ => apply passes_seq_r; [tt_; try leaf|]
        end
    | |- Proof_Seen.passes _ _ _ (rd _) => apply passes_rd; intros ?s ?W
    | |- Proof_Seen.passes _ _ _ (scoped _) => apply passes_scoped; [reflexivity|]
    | |- Proof_Seen.passes _ _ _ (unless_no_line _ _ _) => apply passes_no_line; [try assumption|]
    | |- Proof_Seen.passes _ _ _ (with_res _ _) => apply passes_with_res; intros ?r ?Er
    | I : In ?a ?l |- Proof_Seen.passes _ _ _ (each _ ?l) => apply (passes_each _ _ _ _ _ a I); [|intros; tt_; try leaf]
    | |- Proof_Seen.passes _ _ _ (match ?y with _ => _ end) =>
        match goal with
        | H : y = _ |- _ => rewrite H; cbn beta iota
        end
    end.

  Lemma not_relative : (forall z, attr "level" v = VInt z -> z <= 0) ->
    match fld "level" fs with VInt n => 0 <? n | _ => false end = false.
  Proof.
    intros H. change (attr "level" v) with (fld "level" fs) in H. destruct (fld "level" fs); try reflexivity.
    specialize (H _ eq_refl). apply Z.ltb_ge. lia.
  Qed.
  Ltac into_from :=
    match goal with M : fld "module" fs = _, C : counted _ _, I : In ?a _, N : _ <> "*" |- _ =>
      rewrite M; apply passes_no_line; [exact C|]; apply passes_seq_r; [tt_; leaf|];
      apply (passes_each _ _ _ _ _ a I); [|intros; tt_; try leaf]; apply passes_seq_l; [|tt_; leaf];
      apply String.eqb_neq in N; rewrite N
    end.
  Lemma loads_handler m : loads e v m -> reportable e V m -> puts (mod_ m) (handler e k u pos fs ks).
  Proof.
    intros Hl. destruct Hl as [a K C I|m' (K & C & M & Lv)|m' a (K & C & M & Lv) I N]; intros R.
    all: kd; hd_; unf; eqs; try rewrite (not_relative Lv).
    - repeat u1 add_module. apply puts_module, R.
    - repeat u1 add_module. apply puts_module, R.
    - into_from. repeat u1 add_module. apply puts_module, R.
  Qed.

  Lemma puts_names w y m : below y w -> named m y -> reportable e V m -> has_key m mod_mem_reqs_x = true ->
    puts (mem_ m) (add_names_as_members e w).
  Proof.
    intros Y N R K. apply walk_below in Y. apply (passes_each _ _ _ _ _ y Y).
    - rewrite (named_name_id _ _ N). apply puts_member; assumption.
    - intros. tt_. apply step_add_member.
  Qed.
  Lemma mentions_handler m : mentions e V L v m -> reportable e V m -> has_key m mod_mem_reqs_x = true ->
    puts (mem_ m) (handler e k u pos fs ks).
  Proof.
    intros H. destruct H as [a K C I|m' a (K & C & M & Lv) I N|m' a (K & C & M & Lv) I N|x Ca C|y x K C Y N|y x K C Y N|b r d D U
      |b p d D U ((i & Ii & Bi) & Un) Rp Np]; intros R HK.
    all: try (kd; hd_; unf; try rewrite (not_relative Lv)).
    1-4: eqs.
    - repeat u1 add_member. apply puts_member; assumption.
    - into_from. repeat u1 add_member. apply puts_member; assumption.
    - into_from. do 3 (apply passes_seq_r; [tt_; try leaf|]). apply puts_member; assumption.
    - repeat u1 add_member. match goal with Q : fstr "id" _ = _ |- _ => rewrite Q end. apply puts_member; assumption.
    - apply passes_no_line; [exact C|]. apply passes_seq_r; [tt_; try leaf|]. destruct Y as [Y|Y].
      + apply passes_seq_l; [|tt_; try leaf]. eapply puts_names; eassumption.
      + apply passes_seq_r; [tt_; try leaf|]. apply passes_seq_l; [|tt_; try leaf]. eapply puts_names; eassumption.
    - repeat u1 add_names_as_members. eapply puts_names; eassumption.
    - assert (K : k = KAttribute) by (symmetry; apply kind_eqb_eq, (dotted_kind _ _ _ _ D)). hd_. unf.
      apply passes_seq_l; [|tt_; try leaf]. apply passes_rd. intros s W.
      destruct (dotted_name_attr _ _ _ _ _ D (stands_name b r s U W)) as (l & E & <-). rewrite K in E. rewrite E. cbn [with_res].
      apply passes_when; [reflexivity|]. do 2 (apply passes_seq_r; [tt_; try leaf|]).
      apply passes_seq_l; [|tt_; try leaf]. apply puts_member; assumption.
    - assert (K : k = KAttribute) by (symmetry; apply kind_eqb_eq, (dotted_kind _ _ _ _ D)). hd_. unfold visit_attribute.
      apply passes_seq_l; [|unf; tt_; try leaf]. apply passes_rd. intros s W.
      destruct (dotted_name_attr _ _ _ _ _ D (stands_name b b s (sd_outside _ _ _ _ U) W)) as (l & E & <-). rewrite K in E. rewrite E. cbn [with_res].
      apply passes_when; [reflexivity|]. apply passes_seq_l; [|unf; tt_; try leaf].
      assert (Ip : In p (s_modules s)) by (apply (HO i); [exact Ii|constructor 2; exact (proj1 Bi)|exact Rp|exact W]).
      apply (passes_each _ _ _ _ _ p Ip); [|intros; unf; tt_; try leaf]. unfold attr_module. apply passes_rd. intros s1 W1.
      cbn [hd_is map]. assert (ostr_eqb (Some p) (Some b) = false) as -> by (cbn; apply String.eqb_neq, Np).
      assert (A : assoc b (s_import_mem_mod s1) = Some p) by (apply HM; [split; [exists i; auto|exact Un]|exact W1]). rewrite A.
      apply puts_member; assumption.
  Qed.

  Lemma date_handler d : formats_date e v d -> puts (fun s => In d (s_strftimes s)) (handler e k u pos fs ks).
  Proof.
    intros (K & C & Kf & A & a & t & I & Ca & Hl). kd. hd_. unf. eqs. apply passes_no_line; [exact C|].
    apply passes_seq_l; [|tt_; try leaf]. rewrite Qk. apply passes_seq_l; [|tt_; try leaf].
    rewrite Qk in A. set (at_ := as_str (attr "attr" (VNode KAttribute u0 p c))) in *.
    match goal with |- Proof_Seen.passes _ _ _ (match str_val ?x with Some t0 => if _ then _ else ?w | None => _ end) =>
      enough (E : puts (fun s => In d (s_strftimes s)) w) end.
    - destruct (str_val _) as [t0|]; [|exact E]. assert (((at_ =? "format")%string && contains "{}" t0) = false) as ->; [|exact E].
      destruct A as [<-|[<-|[]]]; reflexivity.
    - apply passes_when; [apply mem_In, A|]. apply (passes_each _ _ _ _ _ a I); [|intros; tt_].
      rewrite (constant_const_val _ _ Ca). apply (passes_each _ _ _ _ _ d (find_letter _ _ Hl)); [|intros; tt_].
      apply puts_strftime.
  Qed.
  Lemma bytes_handler d : formats_bytes v d -> puts (fun s => In d (s_bytesdirs s)) (handler e k u pos fs ks).
  Proof.
    intros (b & [K Ca] & Hl). kd. hd_. unf. change (attr "value" v) with (fld "value" fs) in Ca. rewrite Ca.
    do 2 (apply passes_seq_r; [tt_|]). apply (passes_each _ _ _ _ _ d (find_letter _ _ Hl)); [|intros; tt_]. apply puts_bytes.
  Qed.

  (** A call by a dotted name goes to the function. *)
  Lemma dotted_call P f : calls_dotted e V L v f ->
    (forall l c, puts P (push_fn f >> check_codecs_function e f (flist "args" fs) (flist "keywords" fs) l >>
       when (String.eqb f "array.array") (add_typecodes (flist "args" fs) l c))) -> puts P (handler e k u pos fs ks).
  Proof.
    intros (K & C & b & r & D & U) H. kd. hd_. unfold visit_call, call_attribute. change (attr "func" v) with (fld "func" fs) in D.
    pose proof (dotted_kind _ _ _ _ D) as Kf. apply isa_node in Kf as (u0 & p0 & fs0 & Q).
    apply passes_no_line; [exact C|]. apply passes_seq_l; [|unf; tt_; try leaf]. rewrite Q. rewrite <- Q.
    apply passes_seq_r; [unf; tt_|]. apply passes_rd. intros s W. rewrite (dotted_name_dotted _ _ _ _ _ D (stands_name b r s U W)).
    apply H.
  Qed.
  Lemma codecs_call P f : calls_dotted e V L v f \/ calls_imported e V L v f \/ calls_renamed e V L v f ->
    (forall l, puts P (check_codecs_function e f (flist "args" fs) (flist "keywords" fs) l)) -> puts P (handler e k u pos fs ks).
  Proof.
    intros [D|[(C & x & p & Ca & I & ->)|(C & x & Ca & N & R)]] H.
    - apply (dotted_call _ _ D). intros l c. apply passes_seq_r; [unf; tt_|]. apply passes_seq_l; [|tt_; leaf]. apply H.
    - kd. hd_. unfold visit_call, call_name. eqs. apply passes_no_line; [exact C|]. apply passes_seq_l; [|unf; tt_; try leaf]. rewrite Qn.
      do 2 (apply passes_seq_r; [unf; tt_; try leaf|]). apply passes_seq_l; [|unf; tt_; try leaf]. apply passes_rd. intros s W.
      rewrite Qi, (HM _ _ s I W). apply H.
    - kd. hd_. unfold visit_call, call_name. eqs. apply passes_no_line; [exact C|]. apply passes_seq_l; [|unf; tt_; try leaf]. rewrite Qn.
      do 2 (apply passes_seq_r; [unf; tt_; try leaf|]). apply passes_seq_l; [|unf; tt_; try leaf]. apply passes_rd. intros s W.
      rewrite Qi, (HN _ s N W), (HR _ _ s R W). apply H.
  Qed.
  Lemma typecode_handler d : gives_typecode e V L v d -> puts (fun s => In d (s_typecodes s)) (handler e k u pos fs ks).
  Proof.
    intros ([(Ca & C)|[D|(C & x & Np & Ca & R)]] & a & I & Co).
    - kd. hd_. unf. eqs. apply passes_no_line; [exact C|]. apply passes_seq_l; [|tt_; try leaf]. rewrite Qn.
      do 3 (apply passes_seq_r; [tt_; try leaf|]). apply passes_rd. intros s W. rewrite Qi. cbn.
      eapply puts_typecodes; eassumption.
    - apply (dotted_call _ _ D). intros l c. do 2 (apply passes_seq_r; [unf; tt_; try leaf|]).
      apply passes_when; [reflexivity|]. eapply puts_typecodes; eassumption.
    - kd. hd_. unf. eqs. apply passes_no_line; [exact C|]. apply passes_seq_l; [|tt_; try leaf]. rewrite Qn.
      do 3 (apply passes_seq_r; [tt_; try leaf|]). apply passes_rd. intros s W. rewrite Qi, (HR _ _ s R W).
      apply String.eqb_neq in Np. rewrite Np, orb_true_r. eapply puts_typecodes; eassumption.
  Qed.
  Lemma ceh_handler c : gives_handler e V L v c -> puts (fun s => In c (s_cehs s)) (handler e k u pos fs ks).
  Proof. intros (f & place & D & I & H & N). apply (codecs_call _ _ D). intros l. exact (puts_handler f place v c l I H N). Qed.
  Lemma cenc_handler c : gives_encoding e V L v c -> puts (fun s => In c (s_cencs s)) (handler e k u pos fs ks).
  Proof. intros (f & places & D & I & N & H). apply (codecs_call _ _ D). intros l. exact (puts_encoding f places v c l I N H). Qed.
  Lemma named_operand f x s : named f x -> operand_name s x = Ok (Some f).
  Proof.
    intros N. pose proof (named_name_id _ _ N) as Q. destruct N as [K _]. apply isa_node in K as (u0 & p0 & fs0 & ->).
    cbn [operand_name]. cbn in Q. injection Q as ->. reflexivity.
  Qed.
  Lemma decorator_full x d s : decorator_for e V L x d -> within B s -> exists n, operand_name s x = Ok (Some n) /\ deco_full_name s n = d.
  Proof.
    intros H W. unfold deco_full_name. destruct H as [b r d D U N R|f p N I|f m N I R].
    - exists d. split.
      + pose proof (dotted_name_dotted _ _ _ _ _ D (stands_name b r s U W)) as E.
        pose proof (dotted_kind _ _ _ _ D) as Kx. apply isa_node in Kx as (u0 & p0 & fs0 & ->). cbn [operand_name]. rewrite E. reflexivity.
      + rewrite (HN d s N W), (HQ d s R W). reflexivity.
    - exists f. split; [apply named_operand, N|]. rewrite (HM _ _ s I W). reflexivity.
    - exists f. split; [apply named_operand, N|]. rewrite (HN _ s I W), (HR _ _ s R W). reflexivity.
  Qed.
  Lemma deco_handler d : has_decorator e V L v d -> reportable e V d -> has_key d decorator_user_functions = true ->
    puts (fun s => In d (s_ufds s)) (handler e k u pos fs ks).
  Proof.
    intros (K & C & x & I & Cx & D) R HK.
    enough (E : puts (fun s => In d (s_ufds s)) (check_user_func_decorators e (flist "decorator_list" fs))).
    { destruct (counted_first_deco _ _ _ I Cx) as (l & Y). change (items "decorator_list" v) with (flist "decorator_list" fs) in Y.
      clear - E Y K C F HF HD HT HG. kd; hd_; unfold visit_functiondef, visit_asyncfunctiondef, handle_functiondef.
      all: repeat u1 check_user_func_decorators; try exact E. all: unf; tt_; try leaf. }
    apply (passes_each _ _ _ _ _ x I); [|intros; tt_; apply step_ufd]. apply passes_no_line; [exact Cx|].
    apply passes_rd. intros s W. destruct (decorator_full x d s D W) as (n & O & N). rewrite O. cbn [with_res]. rewrite N.
    apply puts_ufd; assumption.
  Qed.

  (** *** Imports say what names are *)
  Lemma puts_alias a m : b_ali B a m ->
    puts (fun s => In a (map fst (s_module_as_name s))) (upd (fun s => u_module_as_name (dict_set a m (s_module_as_name s)) s)).
  Proof.
    intros H. apply passes_here; [|apply step_alias, H]. intros s s' W E. injection E as <-. cbn.
    apply has_key_In. unfold has_key. rewrite assoc_dict_set, String.eqb_refl. reflexivity.
  Qed.
  Lemma puts_imported a m : b_imp B a m ->
    puts (fun s => In a (map fst (s_import_mem_mod s))) (upd (fun s => u_import_mem_mod (dict_set a m (s_import_mem_mod s)) s)).
  Proof.
    intros H. apply passes_here; [|apply step_imported, H]. intros s s' W E. injection E as <-. cbn.
    apply has_key_In. unfold has_key. rewrite assoc_dict_set, String.eqb_refl. reflexivity.
  Qed.
  Lemma renames_handler a m : renames e v a m -> puts (fun s => In a (map fst (s_module_as_name s))) (handler e k u pos fs ks).
  Proof.
    intros H. destruct H as [x K C I A|p x (K & C & M & Lv) I A].
    - kd. hd_. unf. apply passes_no_line; [exact C|]. apply (passes_each _ _ _ _ _ x I); [|intros; tt_; try leaf].
      do 2 (apply passes_seq_r; [tt_; leaf|]). rewrite A. cbn [as_ostr]. apply passes_seq_l; [|tt_; eapply fit_asname; [auto|exact I|rewrite A; reflexivity]].
      apply puts_alias. eapply fit_alias; [assumption|exact I|]. rewrite A. reflexivity.
    - kd. hd_. unf. rewrite (not_relative Lv). change (attr "module" v) with (fld "module" fs) in M. rewrite M.
      apply passes_no_line; [exact C|]. apply passes_seq_r; [tt_; leaf|].
      apply (passes_each _ _ _ _ _ x I); [|intros; tt_; try leaf]. apply passes_seq_r; [tt_; leaf|].
      rewrite A. cbn [as_ostr]. apply passes_seq_l; [|tt_; eapply fit_asname; [auto|exact I|rewrite A; reflexivity]].
      apply puts_alias. eapply fit_alias_from; [assumption|exact I|exact M|]. rewrite A. reflexivity.
  Qed.
  Lemma brings_handler p x : brings e v p x -> puts (fun s => In x (map fst (s_import_mem_mod s))) (handler e k u pos fs ks).
  Proof.
    intros ((K & C & M & Lv) & N & a & I & <-). kd. hd_. unf. rewrite (not_relative Lv). change (attr "module" v) with (fld "module" fs) in M.
    into_from. apply passes_seq_l; [|tt_; try leaf]. apply puts_imported. eapply fit_import_from; eassumption.
  Qed.

  (** *** What names stand for *)
  Lemma value_assigned man w t : (forall b, unnamed V b -> assoc b man = None) -> value_name V w t -> assigned_name man w = Ok (Some t, None).
  Proof.
    intros M [K|t' K N|b t' K D U|b t' D U].
    - apply isa_node in K as (u1 & p1 & fs1 & ->). reflexivity.
    - apply isa_node in K as (u1 & p1 & fs1 & ->). cbn [assigned_name]. change (attr "func" (VNode KCall u1 p1 fs1)) with (fld "func" fs1) in N.
      rewrite (is_name_id _ _ N). reflexivity.
    - apply isa_node in K as (u1 & p1 & fs1 & ->). cbn [assigned_name]. change (attr "func" (VNode KCall u1 p1 fs1)) with (fld "func" fs1) in D.
      pose proof (dotted_kind _ _ _ _ D) as Kf. pose proof Kf as Kn. apply isa_node in Kn as (u2 & p2 & fs2 & Q).
      assert (name_id (fld "func" fs1) = None) as -> by (rewrite Q; reflexivity). unfold isa in Kf. rewrite Kf.
      rewrite (dotted_name_dotted man _ _ _ _ D); [reflexivity|]. unfold resolve_module_name. rewrite (M b U). reflexivity.
    - pose proof (dotted_kind _ _ _ _ D) as Kf. apply isa_node in Kf as (u2 & p2 & fs2 & ->). cbn [assigned_name].
      rewrite (dotted_name_dotted man _ _ _ _ D); [reflexivity|]. unfold resolve_module_name. rewrite (M b U). reflexivity.
  Qed.
  Lemma puts_assigned a ts t w (P : st -> Prop) : In t ts -> is_name a t -> step (add_name_res_assign ts w) ->
    (forall s vt, within B s -> assigned_name (s_module_as_name s) w = Ok vt ->
       puts P (match vt with (Some y, _) => add_name_res a y | (None, Some ty) => add_name_res_type a ty | (None, None) => nop end)) ->
    (forall s vt, within B s -> assigned_name (s_module_as_name s) w = Ok vt -> forall z b, In z ts -> is_name b z ->
       step (match vt with (Some y, _) => add_name_res b y | (None, Some ty) => add_name_res_type b ty | (None, None) => nop end)) ->
    puts P (add_name_res_assign ts w).
  Proof.
    intros I N S H St. unfold add_name_res_assign. apply passes_rd. intros s W. apply passes_with_res. intros vt E.
    apply (passes_each _ _ _ _ _ t I).
    - rewrite (is_name_id _ _ N). exact (H s vt W E).
    - intros z J. destruct (name_id z) as [b|] eqn:Q; [|apply step_nop]. apply (St s vt W E z b J). apply name_id_is, Q.
  Qed.
  Lemma puts_res a t : step (add_name_res a t) -> puts (fun s => In a (map fst (s_name_res s))) (add_name_res a t).
  Proof.
    intros S. apply passes_here; [|exact S]. intros s s' _ E. injection E as <-. cbn.
    apply has_key_In. unfold has_key. rewrite assoc_dict_set, String.eqb_refl. reflexivity.
  Qed.
  Lemma puts_type a t : puts (fun s => typed (s_name_res_type s) a t) (add_name_res_type a t).
  Proof.
    apply passes_here; [|apply step_name_res_type]. intros s s' _ E. injection E as <-. cbn.
    eexists. rewrite assoc_dict_set, String.eqb_refl. split; [reflexivity|]. apply set_add_In. left. reflexivity.
  Qed.
  (** An assignment of a value called [t], or of a type. *)
  Lemma assigned_handler x w P : gives_value e v x w ->
    (forall s vt, within B s -> assigned_name (s_module_as_name s) w = Ok vt ->
       step (match vt with (Some y, _) => add_name_res x y | (None, Some ty) => add_name_res_type x ty | (None, None) => nop end) ->
       puts P (match vt with (Some y, _) => add_name_res x y | (None, Some ty) => add_name_res_type x ty | (None, None) => nop end)) ->
    puts P (handler e k u pos fs ks).
  Proof.
    intros (C & -> & [[K (t & I & N)]|[K N]]) H.
    - kd. hd_. unf. apply passes_no_line; [exact C|]. apply passes_seq_r; [tt_; leaf|]. apply passes_seq_l; [|tt_; leaf].
      assert (St : forall s vt, within B s -> assigned_name (s_module_as_name s) (fld "value" fs) = Ok vt -> forall z b, In z (flist "targets" fs) -> is_name b z ->
        step (match vt with (Some y, _) => add_name_res b y | (None, Some ty) => add_name_res_type b ty | (None, None) => nop end)).
      { intros s [[y|] o] W E z b J Nb; [|destruct o; [apply step_name_res_type|apply step_nop]].
        apply step_name_res; [eapply fit_asg; eassumption|]. eapply fit_res; try eassumption. apply W. }
      eapply (puts_assigned x _ t); [exact I|exact N|leaf| |exact St]. intros s vt W E. apply (H s vt W E). exact (St s vt W E t x I N).
    - kd. hd_. unf. apply passes_no_line; [exact C|]. apply passes_seq_r; [tt_; leaf|]. apply passes_seq_l; [|tt_; leaf].
      assert (St : forall s vt, within B s -> assigned_name (s_module_as_name s) (fld "value" fs) = Ok vt -> forall z b, In z [fld "target" fs] -> is_name b z ->
        step (match vt with (Some y, _) => add_name_res b y | (None, Some ty) => add_name_res_type b ty | (None, None) => nop end)).
      { intros s [[y|] o] W E z b [<-|[]] Nb; [|destruct o; [apply step_name_res_type|apply step_nop]].
        apply step_name_res; [eapply fit_asg1; [auto|eassumption]|]. eapply fit_res1; try eassumption; [auto|]. apply W. }
      eapply (puts_assigned x _ (fld "target" fs)); [left; reflexivity|exact N|leaf| |exact St]. intros s vt W E. apply (H s vt W E).
      exact (St s vt W E _ x (or_introl eq_refl) N).
  Qed.
  Lemma value_handler x w t : gives_value e v x w -> value_name V w t -> puts (fun s => In x (map fst (s_name_res s))) (handler e k u pos fs ks).
  Proof.
    intros G N. apply (assigned_handler x w _ G). intros s vt W E S.
    rewrite (value_assigned (s_module_as_name s) w t) in E; [|intros b U; exact (HQ b s U W)|exact N]. injection E as <-. apply puts_res, S.
  Qed.
  Lemma type_handler x t : (exists w, gives_value e v x w /\ is_name t w) \/ (isa KClassDef v /\ counted e v /\ as_str (attr "name" v) = x /\ t = x) ->
    puts (fun s => typed (s_name_res_type s) x t) (handler e k u pos fs ks).
  Proof.
    intros [(w & G & N)|(K & C & N & ->)].
    - apply (assigned_handler x w _ G). intros s vt W E S. destruct N as [K I]. apply isa_node in K as (u1 & p1 & fs1 & ->).
      cbn in E. injection E as <-. change (fstr "id" fs1) with (as_str (attr "id" (VNode KName u1 p1 fs1))). rewrite I. apply puts_type.
    - kd. hd_. unf. apply passes_no_line; [exact C|]. change (as_str (attr "name" v)) with (fstr "name" fs) in N. rewrite N.
      apply passes_seq_r; [tt_; rewrite <- N; leaf|]. apply passes_seq_l; [apply puts_type|tt_; try leaf].
  Qed.

  Hypothesis HA : forall x s, unassigned V x -> within B s -> assoc x (s_name_res s) = None.
  Hypothesis HH : forall x t s, holds e V L x t -> within B s -> assoc x (s_name_res s) = Some t.
  Hypothesis HY : forall x t s, holds_type e L x t -> within B s -> typed (s_name_res_type s) x t.

  Lemma written_resolved x t s r : written e V L x t -> within B s -> resolve_full_name s x = Ok r ->
    r = (let n := match assoc t (s_name_res s) with Some r => r | None => t end in
         match assoc n (s_module_as_name s) with
         | Some m => Some m
         | None => match assoc n (s_import_mem_mod s) with Some m => Some (dotted [Some m; Some n]) | None => Some n end
         end).
  Proof.
    intros [t' N|t' K N|b r' d D S] W; unfold resolve_full_name.
    - pose proof (is_name_id _ _ N) as Q. destruct N as [K _]. apply isa_node in K as (u1 & p1 & fs1 & ->). injection Q as ->. cbn. congruence.
    - apply isa_node in K as (u1 & p1 & fs1 & ->). change (attr "func" (VNode KCall u1 p1 fs1)) with (fld "func" fs1) in N.
      rewrite (is_name_id _ _ N). cbn. congruence.
    - pose proof (dotted_kind _ _ _ _ D) as Kf. apply isa_node in Kf as (u2 & p2 & fs2 & ->).
      rewrite (dotted_name_dotted _ _ _ _ _ D (stands_name b r' s S W)). cbn. congruence.
  Qed.
  Lemma name_for_found t f s : name_for e V L t f -> within B s ->
    match assoc t (s_module_as_name s) with
    | Some m => Some m
    | None => match assoc t (s_import_mem_mod s) with Some m => Some (dotted [Some m; Some t]) | None => Some t end
    end = Some f.
  Proof.
    intros [p U I|m R|U N] W.
    - rewrite (HQ t s U W), (HM t p s I W). cbn. reflexivity.
    - rewrite (HR t m s R W). reflexivity.
    - rewrite (HQ t s U W), (HN t s N W). reflexivity.
  Qed.
  Lemma means_resolved x f s r : means e V L x f -> within B s -> resolve_full_name s x = Ok r -> r = Some f.
  Proof.
    intros (t & Wr & H) W E. rewrite (written_resolved x t s r Wr W E). cbv zeta. destruct H as [[U N]|(t' & Ho & N)].
    - rewrite (HA t s U W). exact (name_for_found t f s N W).
    - rewrite (HH t t' s Ho W). exact (name_for_found t' f s N W).
  Qed.
  Lemma plain_dict_is x s : plain_dict e V L x -> within B s -> is_dict (s_name_res s) x = true.
  Proof.
    intros [K|K N|a N H] W; unfold is_dict.
    - apply isa_node in K as (u1 & p1 & fs1 & ->). reflexivity.
    - apply isa_node in K as (u1 & p1 & fs1 & ->). change (attr "func" (VNode KCall u1 p1 fs1)) with (fld "func" fs1) in N.
      cbn. rewrite (is_name_id _ _ N). reflexivity.
    - pose proof (is_name_id _ _ N) as Q. destruct N as [K _]. apply isa_node in K as (u1 & p1 & fs1 & ->). injection Q as Q. cbn.
      rewrite Q, (HH a "dict" s H W). reflexivity.
  Qed.
  Lemma dict_like_is types x s r : dict_like e V L types x -> within B s -> resolve_full_name s x = Ok r ->
    is_dict (s_name_res s) x || in_types r types = true.
  Proof.
    intros [P|(f & M & I)] W E; [rewrite (plain_dict_is x s P W); reflexivity|]. rewrite (means_resolved x f s r M W E).
    cbn. apply mem_In in I. rewrite I. apply orb_true_r.
  Qed.
  Lemma type_like_ok x s r : type_like e V L x -> within B s -> is_none_or_name s x = Ok r -> r = true.
  Proof.
    intros [O|b r' d D S U|a t N H] W.
    - exact (outside_ok x s r O W).
    - pose proof (dotted_kind _ _ _ _ D) as Kf. apply isa_node in Kf as (u2 & p2 & fs2 & Q). unfold is_none_or_name.
      destruct (is_none_node x); [congruence|]. rewrite Q in *. cbn [operand_name]. rewrite (dotted_name_dotted _ _ _ _ _ D (stands_name b r' s S W)).
      cbn. rewrite (untouched_res _ _ U W), (untouched_def _ _ U W). cbn. congruence.
    - unfold is_none_or_name. destruct (is_none_node x); [congruence|]. pose proof (is_name_id _ _ N) as Q. destruct N as [K _].
      apply isa_node in K as (u1 & p1 & fs1 & ->). injection Q as Q. cbn. rewrite Q. destruct (HY a t s H W) as (ts & A & _).
      assert (has_key a (s_name_res_type s) = true) as -> by (unfold has_key; rewrite A; reflexivity). rewrite orb_true_r. congruence.
  Qed.
  Lemma sets_named t : In t builtin_generic_annotation_types -> (c_eval_annotations (e_cfg e) = true -> unnamed V t) ->
    sets (if c_eval_annotations (e_cfg e) then FBuiltinGeneric else FMaybeAnnotations) (generic_match e t).
  Proof.
    intros I U. unfold generic_match. destruct (c_eval_annotations (e_cfg e)); [|apply sets_flag].
    apply passes_rd. intros s W. rewrite (unnamed_def t s (U eq_refl) W). apply passes_seq_l; [apply sets_flag|tt_].
  Qed.
  Lemma sets_generic_like t : k = KSubscript -> counted e v -> generic_like e V L (fld "value" fs) t -> In t builtin_generic_annotation_types ->
    (c_eval_annotations (e_cfg e) = true -> unnamed V t) ->
    sets (if c_eval_annotations (e_cfg e) then FBuiltinGeneric else FMaybeAnnotations) (handler e k u pos fs ks).
  Proof.
    intros K Co G T U. hd_. unfold visit_subscript. apply passes_no_line; [exact Co|].
    apply passes_seq_l; [|tt_; [destruct F as (_ & _ & _ & _ & F4 & _); apply F4; subst k; reflexivity|leaf]].
    unfold check_builtin_generic. apply passes_rd. intros s W. apply passes_with_res. intros r Er.
    destruct G as [b r' D S|a p N No I ->|a N No NI H].
    - pose proof (dotted_kind _ _ _ _ D) as Kf. apply isa_node in Kf as (u2 & p2 & fs2 & Q). rewrite Q in *. cbn [operand_name] in Er.
      rewrite (dotted_name_dotted _ _ _ _ _ D (stands_name b r' s S W)) in Er. injection Er as <-.
      rewrite (proj2 (mem_In _ _) T). apply sets_named; assumption.
    - pose proof (is_name_id _ _ N) as Q. destruct N as [Kn _]. apply isa_node in Kn as (u1 & p1 & fs1 & Qn). rewrite Qn in *. injection Q as Q.
      cbn in Er. injection Er as <-. rewrite Q. apply mem_false in No. rewrite No, (HM a p s I W). cbn zeta.
      change (dotted [Some p; Some a]) with (p +++ "." +++ a). apply passes_when; [apply mem_In, T|]. apply sets_named; assumption.
    - pose proof (is_name_id _ _ N) as Q. destruct N as [Kn _]. apply isa_node in Kn as (u1 & p1 & fs1 & Qn). rewrite Qn in *. injection Q as Q.
      cbn in Er. injection Er as <-. rewrite Q. apply mem_false in No. rewrite No, (HN a s NI W).
      destruct (HY a t s H W) as (ts & A & It). rewrite A. apply (passes_each _ _ _ _ _ t It); [|intros; tt_; apply step_match].
      apply passes_when; [apply mem_In, T|]. apply sets_named; assumption.
  Qed.
  Lemma stood_handler g : stood e V L g v -> sets g (handler e k u pos fs ks).
  Proof.
    intros S. remember v as w eqn:Ew in S. destruct S; subst n.
    - kd. hd_. unfold visit_binop. do 2 (apply passes_seq_r; [tt_|]). apply passes_seq_l; [|tt_; leaf]. apply passes_when; [assumption|].
      apply passes_seq_l; [|tt_]. apply passes_rd. intros s W. apply passes_with_res. intros ln El. apply passes_with_res. intros rn Er.
      apply passes_when; [|apply passes_seq_l; [apply sets_flag|tt_]].
      apply andb_true_iff. split; eapply dict_like_is; eassumption.
    - kd. hd_. unfold visit_augassign. apply passes_no_line; [assumption|].
      do 2 (apply passes_seq_r; [leaf|]). apply passes_seq_l; [|tt_; leaf]. apply passes_when; [assumption|].
      apply passes_rd. intros s W. change (attr "value" v) with (fld "value" fs) in *. rewrite (plain_dict_is _ s ltac:(eassumption) W).
      apply passes_with_res. intros r Er. apply passes_when; [|apply passes_seq_l; [apply sets_flag|tt_]].
      rewrite orb_comm. eapply dict_like_is; eassumption.
    - kd. hd_. unfold visit_binop. do 2 (apply passes_seq_r; [tt_|]). apply passes_seq_l; [|tt_; leaf]. apply passes_when; [assumption|].
      apply passes_seq_r; [tt_|]. apply passes_when; [unfold union_types_enabled; apply mem_In; assumption|].
      apply passes_rd. intros s W. apply passes_with_res. intros b Er. apply passes_when; [|apply passes_seq_l; [apply sets_flag|tt_]].
      unfold and_res in Er. destruct (is_none_or_name s (fld "left" fs)) as [[|]|] eqn:El; try discriminate Er.
      + apply (type_like_ok (fld "right" fs) s b); assumption.
      + apply (type_like_ok (fld "left" fs) s) in El; [discriminate El|assumption|assumption].
    - match goal with H : c_eval_annotations _ = _ |- _ => pose proof (sets_generic_like t) as G; rewrite H in G; apply G; clear G end;
        first [assumption | symmetry; apply kind_eqb_eq; assumption | intros; assumption].
    - match goal with H : c_eval_annotations _ = _ |- _ => pose proof (sets_generic_like t) as G; rewrite H in G; apply G; clear G end;
        first [assumption | symmetry; apply kind_eqb_eq; assumption | discriminate].
  Qed.
  End Using.
End Node.

(** ** Steps of whole trees *)
Definition steps (B : bounds) (k : ksem) : Prop :=
  step B (k_visit k) /\ step B (k_gvisit k) /\ step B (visit_field k) /\
  forall x, In x (k_list k) -> step B (k_visit x) /\ step B (k_gvisit x).
Lemma steps_other B : steps B KOther.
Proof. split; [apply step_nop|]. split; [apply step_nop|]. split; [apply step_nop|intros x []]. Qed.

Lemma steps_kids B ks : (forall f k, In (f, k) ks -> steps B k) ->
  step B (visit_fields ks) /\ step B (visit_fields (drop_returns ks)) /\ forall f, steps B (kid f ks).
Proof.
  intros H. split; [|split].
  - apply step_each. intros [f k] I. exact (proj1 (proj2 (proj2 (H f k I)))).
  - apply step_each. intros [f k] I. unfold drop_returns in I. apply in_map_iff in I as ([f' k'] & E & I). cbn [fst snd] in E.
    destruct (f' =? "returns")%string; injection E as <- <-; [apply step_nop|]. exact (proj1 (proj2 (proj2 (H f' k' I)))).
  - intros f. unfold kid. destruct (assoc f ks) as [k|] eqn:A; [|apply steps_other]. apply assoc_In in A. exact (H f k A).
Qed.

Lemma steps_sem e B v : (forall n, below n v -> fits B n) -> steps B (sem e v).
Proof.
  induction v as [ |b|z|s|s|s|s| |l IH|k u p fs IH] using pyval_rect'; intros H; try apply steps_other.
  - rewrite Forall_forall in IH. cbn [sem].
    assert (L : forall x, In x (map (sem e) l) -> step B (k_visit x) /\ step B (k_gvisit x)).
    { intros x I. apply in_map_iff in I as (y & <- & I).
      destruct (IH y I (fun n Bn => H n (below_item _ _ _ I Bn))) as (A & C & _). auto. }
    split; [apply step_nop|]. split; [apply step_nop|]. split; [|exact L].
    apply step_each. intros x I. apply L, I.
  - rewrite Forall_forall in IH. cbn [sem]. set (ks := map _ fs).
    destruct (steps_kids B ks) as (A & C & D).
    { intros f k' I. apply in_map_iff in I as ([g y] & E & I). injection E as <- <-.
      exact (IH (g, y) I (fun n Bn => H n (below_field _ _ _ _ _ _ _ I Bn))). }
    assert (S : step B (handler e k u p fs ks)).
    { apply step_handler; try assumption.
      - apply H. apply below_here. reflexivity.
      - intros x I. apply (D "finalbody"), I.
      - intros _ x I. apply (D "body"), I. }
    split; [exact S|]. split; [apply step_generic, A|]. split; [exact S|intros x []].
Qed.

(** ** What is seen is visited *)
Lemma assoc_kids e f fs : assoc f (map (fun fx : string * pyval => (fst fx, sem e (snd fx))) fs) = option_map (sem e) (assoc f fs).
Proof. induction fs as [|[g y] r IH]; [reflexivity|]. cbn. destruct (f =? g)%string; [reflexivity|exact IH]. Qed.

Definition visits (e : env) (B : bounds) (n : pyval) (s1 s2 : st) : Prop := within B s1 /\ visit e n s1 = Ok s2.

Section Visits.
  Variables (e : env) (outer : bool) (B : bounds) (P : st -> st -> Prop).
  Notation passes := (passes outer B P).
  Notation kids fs := (map (fun fx : string * pyval => (fst fx, sem e (snd fx))) fs).

  Lemma into_fields f y k u p fs : (forall m, below m (VNode k u p fs) -> fits B m) -> In (f, y) fs ->
    passes (visit_field (sem e y)) -> passes (visit_fields (kids fs)) /\ (f <> "returns" -> passes (visit_fields (drop_returns (kids fs)))).
  Proof.
    intros Fit I V.
    assert (S : forall g k', In (g, k') (kids fs) -> steps B k').
    { intros g k' J. apply in_map_iff in J as ([g' z] & Q & J). injection Q as <- <-. apply steps_sem.
      intros m Bm. exact (Fit m (below_field _ _ _ _ _ _ _ J Bm)). }
    split.
    - apply passes_each with (x := (f, sem e y)); [exact (in_map (fun fx => (fst fx, sem e (snd fx))) _ _ I)|exact V|].
      intros [g k'] J. apply (S g k' J).
    - intros R. apply passes_each with (x := (f, sem e y)); [|exact V|].
      + unfold drop_returns. apply in_map_iff. exists (f, sem e y). cbn [fst]. apply String.eqb_neq in R. rewrite R. split; [reflexivity|].
        exact (in_map (fun fx => (fst fx, sem e (snd fx))) _ _ I).
      + intros [g k'] J. unfold drop_returns in J. apply in_map_iff in J as ([g' k2] & Q & J). cbn [fst snd] in Q.
        destruct (g' =? "returns")%string; injection Q as <- <-; [apply step_nop|]. apply (S g' k2 J).
  Qed.
  Lemma child_field f x w : (forall m, below m w -> fits B m) -> child f x w -> passes (visit e x) ->
    exists y, In (f, y) (fields w) /\ passes (visit_field (sem e y)).
  Proof.
    intros Fit (N & y & I & Y) X. exists y. split; [exact I|]. destruct Y as [->|(l & -> & J)].
    - destruct x; try discriminate N. exact X.
    - cbn [sem visit_field]. apply passes_each with (x := sem e x); [apply in_map, J|exact X|].
      intros z Jz. apply in_map_iff in Jz as (y & <- & Jy). apply steps_sem. intros m Bm. apply Fit.
      destruct w as [ |b|z|s|s|s|s| |l0|k u p fs]; try (exfalso; exact I).
      exact (below_field _ _ _ _ _ _ _ I (below_item _ _ _ Jy Bm)).
  Qed.
  (** A field that is looked at. *)
  Lemma open_field w f y : (forall m, below m w -> fits B m) -> opens e outer w f -> In (f, y) (fields w) ->
    passes (visit_field (sem e y)) -> passes (visit e w).
  Proof.
    intros Fit O I X. destruct w as [ |b|z|s|s|s|s| |l|k u p fs]; try (exfalso; exact I). unfold visit. cbn [sem k_visit].
    destruct (into_fields f y _ _ _ _ Fit I X) as [A D].
    destruct (steps_kids B (map (fun fx => (fst fx, sem e (snd fx))) fs)) as (H1 & H2 & H3).
    { intros g k' J. apply in_map_iff in J as ([g' z] & Q & J). injection Q as <- <-. apply steps_sem.
      intros m Bm. exact (Fit m (below_field _ _ _ _ _ _ _ J Bm)). }
    apply into_handler with (f := f); try assumption.
    + apply Fit. apply below_here. reflexivity.
    + intros z J. apply (H3 "finalbody"), J.
    + intros _ z J. apply (H3 "body"), J.
  Qed.
End Visits.

Lemma child_below f x w m : child f x w -> below m x -> below m w.
Proof.
  intros (N & y & I & Y) Bm. destruct w as [ |b|z|s|s|s|s| |l0|k u p fs]; try (exfalso; exact I). destruct Y as [->|(l & -> & J)].
  - exact (below_field _ _ _ _ _ _ _ I Bm).
  - exact (below_field _ _ _ _ _ _ _ I (below_item _ _ _ J Bm)).
Qed.
Lemma seen_visited e outer B n v : (forall m, below m v -> fits B m) -> seen e outer n v -> passes outer B (visits e B n) (visit e v).
Proof.
  intros Fit S. induction S as [N|v f x O C S IH|v y f x K Co I C S IH].
  - apply passes_here; [intros s s' W E; split; assumption|]. apply steps_sem, Fit.
  - assert (X : passes outer B (visits e B n) (visit e x)) by (apply IH; intros m Bm; exact (Fit m (child_below _ _ _ _ C Bm))).
    destruct (child_field e outer B _ f x v Fit C X) as (y & I & Y). exact (open_field e outer B _ v f y Fit O I Y).
  - destruct v as [ |b|z|s|s|s|s| |l|k u p fs]; try discriminate K. unfold visit. cbn [sem k_visit].
    assert (Ek : k = KClassDef) by (symmetry; apply kind_eqb_eq, K).
    destruct (steps_kids B (map (fun fx => (fst fx, sem e (snd fx))) fs)) as (H1 & H2 & H3).
    { intros g k' J. apply in_map_iff in J as ([g' z] & Q & J). injection Q as <- <-. apply steps_sem.
      intros m Bm. exact (Fit m (below_field _ _ _ _ _ _ _ J Bm)). }
    destruct y as [ |b|z|s|s|s|s| |l|k2 u2 p2 fs2]; try (exfalso; destruct C as (_ & y & [] & _)).
    assert (FitY : forall m, below m (VNode k2 u2 p2 fs2) -> fits B m).
    { intros m Bm. apply Fit. change (items "body" (VNode k u p fs)) with (flist "body" fs) in I. unfold flist, fld in I. destruct (assoc "body" fs) as [b|] eqn:A; [|exfalso; exact I].
      apply assoc_In in A. destruct b; try (exfalso; exact I). exact (below_field _ _ _ _ _ _ _ A (below_item _ _ _ I Bm)). }
    assert (X : passes outer B (visits e B n) (visit e x)) by (apply IH; intros m Bm; exact (FitY m (child_below _ _ _ _ C Bm))).
    destruct (child_field e outer B _ f x _ FitY C X) as (y & J & Y).
    destruct (into_fields e outer B _ f y _ _ _ _ FitY J Y) as [A _].
    apply into_class; try assumption.
    + apply Fit. apply below_here. reflexivity.
    + intros _ z Jz. apply (H3 "body"), Jz.
    + apply passes_each with (x := sem e (VNode k2 u2 p2 fs2)).
      * change (items "body" (VNode k u p fs)) with (flist "body" fs) in I. unfold flist, fld in I. unfold kid. rewrite assoc_kids.
        destruct (assoc "body" fs) as [b|]; [|exfalso; exact I]. destruct b; try (exfalso; exact I). apply (in_map (sem e)), I.
      * cbn [sem k_gvisit]. apply passes_generic, A.
      * intros z Jz. apply (H3 "body"), Jz.
Qed.

(** ** Certain finds are found *)
Lemma seen_below e o n v : seen e o n v -> below n v.
Proof.
  induction 1 as [N|v f x O C S IH|v y f x K Co I C S IH].
  - apply below_here, N.
  - destruct v as [ |b|z|s|s|s|s| |l|k u p fs]; try (exfalso; destruct C as (_ & y & [] & _)).
    destruct C as (Nx & y & I & [->|(l & -> & J)]).
    + exact (below_field _ _ _ _ _ _ _ I IH).
    + exact (below_field _ _ _ _ _ _ _ I (below_item _ _ _ J IH)).
  - destruct v as [ |b|z|s|s|s|s| |l|k u p fs]; try discriminate K.
    destruct y as [ |b|z|s|s|s|s| |l|k2 u2 p2 fs2]; try (exfalso; destruct C as (_ & y & [] & _)).
    change (items "body" (VNode k u p fs)) with (flist "body" fs) in I. unfold flist, fld in I.
    destruct (assoc "body" fs) as [b|] eqn:A; [|exfalso; exact I].
    apply assoc_In in A. destruct b; try (exfalso; exact I). refine (below_field _ _ _ _ _ _ _ A (below_item _ _ _ I _)).
    destruct C as (Nx & y & J & [->|(l' & -> & J')]).
    + exact (below_field _ _ _ _ _ _ _ J IH).
    + exact (below_field _ _ _ _ _ _ _ J (below_item _ _ _ J' IH)).
Qed.
