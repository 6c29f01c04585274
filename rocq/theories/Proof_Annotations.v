(** Annotations that are not evaluated. Lemmas for C86. *)
From Verif Require Import PyBase PyLemmas Utility RulesData Rules Config Formats Paths AstKinds Ast State Visitor MinVersions Fstring
  Parser Processor Spec_Base Spec_Visitor Spec_Seen Spec_MinVersions Spec_Same Spec_Layout Spec_Idle Spec_Annotations
  Proof_Tour Proof_Same Proof_Moved.

(** ** Fields *)
Lemma assoc_with f x g fs : assoc g (with_field f x fs) = if String.eqb g f then option_map (fun _ => x) (assoc g fs) else assoc g fs.
Proof.
  induction fs as [|[h y] fs IH]; cbn [with_field map assoc fst]; [destruct (String.eqb g f); reflexivity|].
  fold (with_field f x fs). destruct (String.eqb h f) eqn:Hf; cbn [assoc].
  - destruct (String.eqb g h) eqn:G; [|exact IH]. apply String.eqb_eq in G as <-. rewrite Hf. reflexivity.
  - destruct (String.eqb g h) eqn:G; [|exact IH]. apply String.eqb_eq in G as <-. rewrite Hf. reflexivity.
Qed.
Lemma fld_with f x g fs : String.eqb g f = false -> fld g (with_field f x fs) = fld g fs.
Proof. intros H. unfold fld. rewrite assoc_with, H. reflexivity. Qed.
Lemma fld_with_here f x fs : fld f (with_field f x fs) = fld f fs \/ fld f (with_field f x fs) = x.
Proof. unfold fld. rewrite assoc_with, String.eqb_refl. destruct (assoc f fs); [right|left]; reflexivity. Qed.

Lemma as_str_is x n : n <> "" -> as_str x = n -> x = VStr n.
Proof. intros N. destruct x; cbn; congruence. Qed.
Lemma name_id_names n a : n <> "" -> ostr_eqb (name_id a) (Some n) = true <-> isa KName a /\ attr "id" a = VStr n.
Proof.
  intros N. split.
  - destruct a as [| | | | | | | | |k u p fs]; try discriminate. destruct k; try discriminate. cbn. intros E.
    apply String.eqb_eq in E. split; [reflexivity|]. apply as_str_is; [exact N|exact E].
  - intros [K E]. destruct (isa_kind _ _ K) as (u & p & fs & ->). unfold attr in E. cbn [Ast.fields] in E. cbn. unfold fstr.
    rewrite E. apply String.eqb_refl.
Qed.
Lemma ann_is_names n a : n <> "" -> ann_is n a = true <-> names_type n a.
Proof.
  intros N. unfold ann_is, names_type. rewrite orb_true_iff, andb_true_iff, !name_id_names by exact N. reflexivity.
Qed.
Lemma bool_iff (a b : bool) : (a = true <-> b = true) -> a = b.
Proof. destruct a, b; intros [H H']; auto. symmetry. auto. Qed.
Lemma special_ann a a' n : same_special a a' -> n = "Final" \/ n = "Literal" -> ann_is n a' = ann_is n a.
Proof.
  intros [S1 S2] N. apply bool_iff. rewrite !ann_is_names by (destruct N as [-> | ->]; discriminate).
  destruct N as [-> | ->]; symmetry; assumption.
Qed.

(** ** Visits *)
Lemma like_trans a b c : like a b -> like b c -> like a c.
Proof. intros (o & l & z & ->) (o' & l' & z' & ->). exists o', l', z'. destruct a. reflexivity. Qed.
Lemma sim_trans a b c : sim a b -> sim b c -> sim a c.
Proof.
  intros A B s s' L. specialize (A s s (like_refl s)). specialize (B s s' L).
  destruct (a s), (b s), (c s'); cbn in A, B; try contradiction; cbn; [eapply like_trans; eassumption|congruence].
Qed.

Section Ann.
  Variables (c : config) (path : string) (src : option string) (nl : list Z)
    (sd : list (string * string) -> pyval -> res bool) (d d' : pyval -> string).
  Hypothesis Off : c_eval_annotations c = false.
  Hypothesis Targets : targets_given c.
  Let e := mkEnv c path src nl sd d.
  Let e' := mkEnv c path src nl sd d'.
  Notation alike := (alike c c path src nl sd d d').
  Notation alike_fields := (alike_fields c c path src nl sd d d').
  Notation alike_block := (alike_block c c path src nl sd d d').

  Lemma variable_same (g : env) u p fs a ks ks' : c_eval_annotations (e_cfg g) = false -> same_special (fld "annotation" fs) a ->
    handler g KAnnAssign u p (with_field "annotation" a fs) ks' = handler g KAnnAssign u p fs ks.
  Proof.
    intros O S. cbn [handler]. unfold visit_annassign. rewrite O.
    rewrite !(fld_with "annotation" a "target"), !(fld_with "annotation" a "value") by reflexivity.
    change (lineno (VNode KAnnAssign u p (with_field "annotation" a fs))) with (lineno (VNode KAnnAssign u p fs)).
    destruct (fld_with_here "annotation" a fs) as [-> | ->]; [reflexivity|].
    rewrite !(special_ann _ _ _ S) by auto. reflexivity.
  Qed.

  Lemma without_with k u p fs a : without_returns (VNode k u p (with_field "returns" a fs)) = without_returns (VNode k u p fs).
  Proof.
    cbn [without_returns]. f_equal. unfold with_field. rewrite map_map. apply map_ext. intros [f x]. cbn [fst].
    destruct (String.eqb f "returns") eqn:E; cbn [fst]; rewrite E; reflexivity.
  Qed.
  Lemma drop_with g fs a : drop_returns (map (fun fx => (fst fx, sem g (snd fx))) (with_field "returns" a fs)) =
    drop_returns (map (fun fx => (fst fx, sem g (snd fx))) fs).
  Proof.
    unfold drop_returns, with_field. rewrite !map_map. apply map_ext. intros [f x]. cbn [fst snd].
    destruct (String.eqb f "returns") eqn:E; cbn [fst snd]; rewrite E; reflexivity.
  Qed.
  Lemma returns_same (g : env) k u p fs a : c_eval_annotations (e_cfg g) = false -> k = KFunctionDef \/ k = KAsyncFunctionDef ->
    fld "returns" fs <> VNone -> a <> VNone ->
    k_visit (sem g (VNode k u p (with_field "returns" a fs))) = k_visit (sem g (VNode k u p fs)).
  Proof.
    intros O K N N'. cbn [sem k_visit].
    assert (E : forall fs, fld "returns" fs <> VNone -> is_none (fld "returns" fs) = false).
    { intros gs H. destruct (fld "returns" gs); try reflexivity. contradiction. }
    assert (N1 : is_none (fld "returns" (with_field "returns" a fs)) = false).
    { apply E. destruct (fld_with_here "returns" a fs) as [-> | ->]; assumption. }
    assert (H : handle_functiondef g (VNode k u p (with_field "returns" a fs)) (with_field "returns" a fs)
        (map (fun fx => (fst fx, sem g (snd fx))) (with_field "returns" a fs)) =
      handle_functiondef g (VNode k u p fs) fs (map (fun fx => (fst fx, sem g (snd fx))) fs)).
    { unfold handle_functiondef. rewrite O, N1, (E fs N). cbn [negb andb]. rewrite without_with, drop_with.
      unfold flist, fstr. rewrite !(fld_with "returns" a) by reflexivity. reflexivity. }
    destruct K as [-> | ->]; cbn [handler]; unfold visit_functiondef, visit_asyncfunctiondef; rewrite H; reflexivity.
  Qed.

  Scheme reannotated_ind' := Minimality for reannotated Sort Prop
    with reannotated_fields_ind' := Minimality for reannotated_fields Sort Prop
    with reannotated_block_ind' := Minimality for reannotated_block Sort Prop.

  Definition alike_if (b : bool) (v v' : pyval) : Prop :=
    forall d d', sim (visit (mkEnv c path src nl sd d) v) (visit (mkEnv c path src nl sd d') v') /\
      (b = true -> sim (k_gvisit (sem (mkEnv c path src nl sd d) v)) (k_gvisit (sem (mkEnv c path src nl sd d') v'))).

  Lemma alike_reannotated b v v' : reannotated b v v' -> alike_if b v v'.
  Proof.
    pose proof (same_analysis_refl c) as S. clear d d' e e'.
    intros E. induction E using reannotated_ind' with
      (P0 := fun b fs fs' => forall d d', Proof_Same.alike_fields c c path src nl sd d d' b fs fs')
      (P1 := fun b l l' => forall d d', Proof_Same.alike_block c c path src nl sd d d' b l l').
    - intros d d'. destruct (alike_same c c path src nl sd d d' S Targets Targets v) as (X1 & X2 & _). split; auto.
    - intros d d'. destruct (IHE1 d d) as [A1 A2], (IHE2 d d') as [B1 B2]. split; [eapply sim_trans; eassumption|].
      intros B. eapply sim_trans; [exact (A2 B)|exact (B2 B)].
    - intros d d'. split; [|discriminate].
      replace (visit (mkEnv c path src nl sd d') (VNode KAnnAssign u p (with_field "annotation" a fs)))
        with (visit (mkEnv c path src nl sd d') (VNode KAnnAssign u p fs)).
      + exact (proj1 (alike_same c c path src nl sd d d' S Targets Targets _)).
      + symmetry. unfold visit. cbn [sem k_visit]. apply variable_same; [exact Off|exact H].
    - intros d d'. split; [|discriminate].
      replace (visit (mkEnv c path src nl sd d') (VNode k u p (with_field "returns" a fs)))
        with (visit (mkEnv c path src nl sd d') (VNode k u p fs)).
      + exact (proj1 (alike_same c c path src nl sd d d' S Targets Targets _)).
      + symmetry. apply returns_same; assumption.
    - intros d d'. destruct (alike_node c c path src nl sd d d' S Targets Targets k u p fs fs') as (X1 & X2 & _);
        [left; assumption|apply IHE|]. split; auto.
    - intros d d'. split; [apply sim_nop|]. split; [apply sim_nop|]. split; [intros; apply sim_nop|]. split; [intros; apply sim_nop|reflexivity].
    - intros d d'. destruct (alike_same c c path src nl sd d d' S Targets Targets x) as (X1 & X2 & X3 & X4 & X5). apply alike_cons; auto.
    - intros d d'. destruct (IHE d d') as [B1 B2]. apply alike_cons; auto.
    - intros d d'. split; [apply sim_nop|intros; apply sim_nop].
    - intros d d'. destruct (IHE d d') as (X1 & X2), (IHE0 d d') as [B1 B2]. split; [exact (sim_seq _ _ _ _ X1 B1)|].
      intros B. exact (sim_seq _ _ _ _ (X2 B) (B2 B)).
  Qed.
End Ann.

Lemma visited_reannotated c path src nl sd d d' v v' : c_eval_annotations c = false -> targets_given c -> reannotated false v v' ->
  sim (visit (mkEnv c path src nl sd d) v) (visit (mkEnv c path src nl sd d') v').
Proof. intros O T E. exact (proj1 (alike_reannotated c path src nl sd O T false v v' E d d')). Qed.
