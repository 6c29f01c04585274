(** Idle statements change nothing. Lemmas for C85. *)
From Verif Require Import PyBase PyLemmas Utility RulesData Rules Config Formats Paths AstKinds Ast State Visitor MinVersions Fstring
  Parser Processor Spec_Base Spec_Visitor Spec_Seen Spec_MinVersions Spec_Same Spec_Layout Spec_Idle
  Proof_Tour Proof_MinVersions Proof_Same Proof_Verdict Proof_Layout Proof_Moved.

(** ** Visits that change the text and the current line only *)
Definition calm (a : act) : Prop := forall s, exists o l, a s = Ok (u_out o (u_line l s)).
Lemma calm_nop : calm nop.
Proof. intros s. exists (s_out s), (s_line s). destruct s. reflexivity. Qed.
Lemma calm_seq a b : calm a -> calm b -> calm (a >> b).
Proof.
  intros A B s. unfold seq. destruct (A s) as (o & l & ->). destruct (B (u_out o (u_line l s))) as (o' & l' & ->).
  exists o', l'. reflexivity.
Qed.
Lemma calm_each {A} (f : A -> act) l : Forall (fun x => calm (f x)) l -> calm (each f l).
Proof. intros F. induction F; [exact calm_nop|]. cbn [each]. apply calm_seq; assumption. Qed.
Lemma calm_generic e v ks : calm (visit_fields ks) -> calm (generic_visit e v ks).
Proof.
  intros F s. unfold generic_visit.
  assert (P : calm (match pos_of v with Some (l, _) => upd (u_line l) | None => nop end)).
  { destruct (pos_of v) as [[l c]|]; [|exact calm_nop]. intros t. exists (s_out t), l. destruct t. reflexivity. }
  unfold seq at 1. destruct (P s) as (o & l & ->). unfold seq at 1. unfold upd at 1.
  match goal with |- context [when ?b ?a] => assert (D : calm (when b a)) end.
  { unfold when. destruct (_ && _); [|exact calm_nop]. intros t. unfold upd. eexists _, (s_line t). destruct t. reflexivity. }
  unfold seq at 1. match type of D with calm ?a => match goal with |- context [a ?t] => destruct (D t) as (o1 & l1 & ->) end end.
  unfold seq. match goal with |- context [visit_fields ks ?t] => destruct (F t) as (o2 & l2 & ->) end.
  exists o2, l2. unfold upd. destruct s. cbn. rewrite Z.add_simpl_r. reflexivity.
Qed.

Lemma calm_no_line e l a : calm a -> calm (unless_no_line e l a).
Proof. intros A. unfold unless_no_line. destruct (is_no_line e l); [exact calm_nop|exact A]. Qed.
Lemma calm_while a : calm a ->
  calm (upd (fun s => u_seen_while (s_seen_while s + 1) s) >> a >> upd (fun s => u_seen_while (s_seen_while s - 1) s)).
Proof.
  intros A s. unfold seq, upd. match goal with |- context [a ?t] => destruct (A t) as (o & l & ->) end.
  exists o, l. destruct s. cbn. rewrite Z.add_simpl_r. reflexivity.
Qed.
Lemma calm_try a b : calm a -> calm b ->
  calm (upd (fun s => u_try_finally (s_try_finally s ++ [(s_seen_for s, s_seen_while s)]) s) >> a >>
        upd (fun s => u_try_finally (removelast (s_try_finally s)) s) >> b).
Proof.
  intros A B s. unfold seq, upd. match goal with |- context [a ?t] => destruct (A t) as (o & l & ->) end.
  match goal with |- context [b ?t] => destruct (B t) as (o' & l' & ->) end.
  exists o', l'. destruct s. cbn. rewrite removelast_last. reflexivity.
Qed.
Lemma idle_no_star l : Forall (fun x => is_node x = true -> idle_node x) l -> existsb is_valid_star_unpack l = false.
Proof.
  intros F. induction F as [|x l X F IH]; [reflexivity|]. cbn [existsb]. rewrite IH, orb_false_r.
  unfold is_valid_star_unpack. destruct x as [| | | | | | | | |k u p fs]; try reflexivity.
  destruct (X eq_refl) as [(q & Q & K)|(K & _)].
  - destruct (isa_kind _ _ K) as (u' & p' & fs' & [= -> -> -> ->]). cbn [In app idle_statements idle_expressions] in Q.
    repeat (destruct Q as [<-|Q]; [reflexivity|]). destruct Q.
  - destruct (isa_kind _ _ K) as (u' & p' & fs' & [= -> -> -> ->]). reflexivity.
Qed.

Definition calm_sem (k : ksem) : Prop := calm (k_visit k) /\ calm (k_gvisit k) /\ calm (visit_field k).
Lemma idle_calm e v : (forall n, below n v -> idle_node n) -> calm_sem (sem e v).
Proof.
  induction v as [ |b|z|s|s|s|s| |l IH|k u p fs IH] using pyval_rect'; intros I;
    try (split; [exact calm_nop|split; exact calm_nop]).
  - split; [exact calm_nop|]. split; [exact calm_nop|]. cbn [sem visit_field]. apply calm_each.
    rewrite Forall_forall in IH. rewrite Forall_map, Forall_forall. intros x X. apply IH; [exact X|].
    intros n B. apply I. apply (below_item n l x X B).
  - assert (F : calm (visit_fields (map (fun fx => (fst fx, sem e (snd fx))) fs))).
    { unfold visit_fields. apply calm_each. rewrite Forall_map. rewrite Forall_forall in IH |- *. intros [f x] X. cbn [fst snd].
      apply (IH (f, x) X). intros n B. apply I. apply (below_field n k u p fs f x X B). }
    assert (G : calm (generic_visit e (VNode k u p fs) (map (fun fx => (fst fx, sem e (snd fx))) fs))) by (apply calm_generic, F).
    assert (H : calm (handler e k u p fs (map (fun fx => (fst fx, sem e (snd fx))) fs))).
    { assert (B : below (VNode k u p fs) (VNode k u p fs)) by (apply below_here; reflexivity).
      destruct (I _ B) as [(q & Q & K)|(K & V & _)].
      - destruct (isa_kind _ _ K) as (u' & p' & fs' & [= -> -> -> ->]). cbn [In app idle_statements idle_expressions] in Q.
        assert (W : calm (visit_cond e (VNode q u' p' fs') (map (fun fx => (fst fx, sem e (snd fx))) fs'))) by (apply calm_no_line, G).
        assert (L : calm (visit_while e (VNode q u' p' fs') (map (fun fx => (fst fx, sem e (snd fx))) fs'))) by (apply calm_no_line, calm_while, G).
        assert (T : calm (visit_try e (VNode q u' p' fs') (map (fun fx => (fst fx, sem e (snd fx))) fs'))).
        { apply calm_no_line, calm_try; [|exact G]. clear - IH I.
          assert (A : forall fs0, (forall f x, In (f, x) fs0 -> In (f, x) fs') ->
            calm (each k_visit (k_list (kid "finalbody" (map (fun fx => (fst fx, sem e (snd fx))) fs0))))).
          { intros fs0 S. unfold kid. induction fs0 as [|[f x] r IHr]; [exact calm_nop|]. cbn [map fst snd assoc].
            destruct (String.eqb "finalbody" f); [|apply IHr; intros g y Y; apply S; right; exact Y].
            assert (X : In (f, x) fs') by (apply S; left; reflexivity). rewrite Forall_forall in IH.
            destruct (IH (f, x) X) as (_ & _ & C). { intros n B. apply I. apply (below_field n q u' p' fs' f x X B). }
            cbn [snd] in C. destruct x; try exact calm_nop. exact C. }
          apply A. auto. }
        assert (S : calm (visit_seq e (VNode q u' p' fs') fs' (map (fun fx => (fst fx, sem e (snd fx))) fs'))).
        { unfold visit_seq, check_gen_unp_seq. rewrite idle_no_star; [apply calm_seq; [exact calm_nop|exact G]|].
          rewrite Forall_forall. intros x X N. apply I. unfold flist, fld in X. destruct (assoc "elts" fs') as [y|] eqn:Y; [|destruct X].
          apply assoc_In in Y. destruct y; try destruct X. apply (below_field x q u' p' fs' "elts" (VList l) Y), (below_item x l x X), below_here, N. }
        repeat (destruct Q as [<-|Q]; [first [exact G|exact calm_nop|exact W|exact L|exact T|exact S]|]). destruct Q.
      - destruct (isa_kind _ _ K) as (u' & p' & fs' & [= -> -> -> ->]). cbn [handler]. unfold visit_constant. unfold attr in V. cbn [Ast.fields] in V.
        destruct (fld "value" fs'); try contradiction; exact calm_nop. }
    split; [exact H|]. split; [exact G|exact H].
Qed.

Section Padded.
  Variables (c : config) (path : string) (src : option string) (nl : list Z)
    (sd : list (string * string) -> pyval -> res bool) (d d' : pyval -> string).
  Hypothesis Targets : targets_given c.
  Let e := mkEnv c path src nl sd d.
  Let e' := mkEnv c path src nl sd d'.
  Notation alike := (alike c c path src nl sd d d').
  Notation alike_fields := (alike_fields c c path src nl sd d d').
  Notation alike_block := (alike_block c c path src nl sd d d').

  Lemma calm_left a : calm a -> sim a nop.
  Proof. intros A s s' (o & l & z & ->). destruct (A s) as (o1 & l1 & ->). cbn. exists o, l, z. reflexivity. Qed.
  Lemma calm_right a : calm a -> sim nop a.
  Proof.
    intros A s s' (o & l & z & ->). cbn. destruct (A (u_out o (u_line l (u_lcs z s)))) as (o1 & l1 & ->). exists o1, l1, z. reflexivity.
  Qed.
  Lemma sim_skip' a b b' : sim nop a -> sim b b' -> sim b (a >> b').
  Proof. intros A B. change b with (nop >> b). apply sim_seq; assumption. Qed.

  Scheme padded_ind' := Minimality for padded Sort Prop
    with padded_fields_ind' := Minimality for padded_fields Sort Prop
    with padded_block_ind' := Minimality for padded_block Sort Prop.

  Lemma alike_padded v v' : padded v v' -> alike v v'.
  Proof.
    pose proof (same_analysis_refl c) as S.
    intros E. induction E using padded_ind' with (P0 := alike_fields true) (P1 := alike_block true).
    - apply alike_same; assumption.
    - apply alike_node; try assumption; [left; assumption|].
      destruct IHE as (A1 & A2 & A3 & A4 & A5). repeat (split; [assumption|]). split; [intros _; apply A4; reflexivity|assumption].
    - split; [apply sim_nop|]. split; [apply sim_nop|]. split; [intros; apply sim_nop|]. split; [intros; apply sim_nop|reflexivity].
    - destruct (alike_same c c path src nl sd d d' S Targets Targets x) as (X1 & X2 & X3 & X4 & X5). apply alike_cons; auto.
    - destruct IHE as [B1 B2]. apply alike_cons; auto.
    - split; [apply sim_nop|intros; apply sim_nop].
    - destruct IHE as (X1 & X2 & _), IHE0 as [B1 B2]. split; [exact (sim_seq _ _ _ _ X1 B1)|].
      intros B. exact (sim_seq _ _ _ _ X2 (B2 B)).
    - destruct H as [_ I]. destruct (idle_calm e x I) as (C1 & C2 & _), IHE as [B1 B2]. split.
      + cbn [map each]. apply sim_skip; [exact (calm_left _ C1)|exact B1].
      + intros B. cbn [map each]. apply sim_skip; [exact (calm_left _ C2)|exact (B2 B)].
    - destruct H as [_ I]. destruct (idle_calm e' x I) as (C1 & C2 & _), IHE as [B1 B2]. split.
      + cbn [map each]. apply sim_skip'; [exact (calm_right _ C1)|exact B1].
      + intros B. cbn [map each]. apply sim_skip'; [exact (calm_right _ C2)|exact (B2 B)].
  Qed.

End Padded.


Lemma visited_padded c path src nl sd d d' v v' : targets_given c -> padded v v' ->
  sim (visit (mkEnv c path src nl sd d) v) (visit (mkEnv c path src nl sd d') v').
Proof. intros T E. exact (proj1 (alike_padded c path src nl sd d d' T v v' E)). Qed.
