(** The lines in front of keyword arguments are lines of calls that have them. Lemmas for C64. *)
From Verif Require Import PyBase PyLemmas Utility RulesData Rules Config Formats Paths AstKinds Ast State Visitor MinVersions
  Spec_Base Spec_Visitor Spec_MinVersions Spec_Places Spec_Explain Spec_Kwlines Proof_Utility Proof_Shapes Proof_Runs Proof_Claims Proof_Places Proof_Spots.

Section Lines.
  Variables (e : env) (root : pyval).

  (** [A]: the lines the visitor may be at. *)
  Definition hosts (k : option string) (l : Z) : Prop := forall k', k = Some k' -> hosted root k' l.
  Definition fine (A : Z -> Prop) (s : st) : Prop :=
    A (s_line s) /\ (forall f k l c, In (EKw f k, (l, c)) (s_lcs s) -> c = None /\ hosts k l) /\
    forall f k, In (f, k) (s_kwargs s) -> exists p, In (EKw f k, p) (s_lcs s).
  Definition hold (A : Z -> Prop) (a : act) : Prop := forall s s', a s = Ok s' -> fine A s -> fine A s'.

  Variable A : Z -> Prop.
  Notation keep := (hold A).
  Lemma hold_nop : keep nop.
  Proof. intros s s' E. injection E as <-. auto. Qed.
  Lemma hold_fail x : keep (fail x).
  Proof. intros s s' E. discriminate. Qed.
  Lemma hold_seq a b : keep a -> keep b -> keep (a >> b).
  Proof. intros X Y s s' E G. destruct (seq_ok _ _ _ _ E) as (s1 & E1 & E2). exact (Y _ _ E2 (X _ _ E1 G)). Qed.
  Lemma hold_when b a : keep a -> keep (when b a).
  Proof. destruct b; [auto|]. intros _. apply hold_nop. Qed.
  Lemma hold_rd f : (forall s, fine A s -> keep (f s)) -> keep (rd f).
  Proof. intros F s s' E G. exact (F s G s s' E G). Qed.
  Lemma hold_with_res {B} (m : res B) f : (forall a, keep (f a)) -> keep (with_res m f).
  Proof. intros F. destruct m; [apply F|apply hold_fail]. Qed.
  Lemma hold_each {B} (f : B -> act) l : (forall x, In x l -> keep (f x)) -> keep (each f l).
  Proof.
    induction l as [|x r IH]; intros F; [apply hold_nop|]. cbn [each]. apply hold_seq; [apply F; left; reflexivity|].
    apply IH. intros y I. apply F. right. exact I.
  Qed.
  Definition still (f : st -> st) : Prop := forall s, s_line (f s) = s_line s /\ s_lcs (f s) = s_lcs s /\ incl (s_kwargs (f s)) (s_kwargs s).
  Lemma fine_still s s' : s_line s' = s_line s -> s_lcs s' = s_lcs s -> incl (s_kwargs s') (s_kwargs s) -> fine A s -> fine A s'.
  Proof. intros E1 E2 I (G1 & G2 & G3). unfold fine. rewrite E1, E2. auto. Qed.
  Lemma hold_upd f : still f -> keep (upd f).
  Proof. intros H s s' E. injection E as <-. destruct (H s) as (X & Y & Z). apply fine_still; assumption. Qed.
  Lemma hold_flag f : keep (set_flag f).
  Proof. apply hold_upd. intros s. destruct (existsb _ _); (split; [|split]; try reflexivity; apply incl_refl). Qed.
  Lemma hold_scoped a : keep a -> keep (scoped a).
  Proof. intros X s s' E G. unfold scoped in E. destruct (a s) as [s1|] eqn:E1; [|discriminate]. injection E as <-. exact (X _ _ E1 G). Qed.
  Lemma hold_no_line l a : keep a -> keep (unless_no_line e l a).
  Proof. intros X. unfold unless_no_line. destruct (is_no_line e l); [apply hold_nop|exact X]. Qed.
  Lemma hold_lc x l c : keep (add_lc (EStr x) l c).
  Proof.
    intros s s' E (G1 & G2 & G3). injection E as <-. split; [exact G1|]. split; cbn.
    - intros f k l' c' [I|I]; [discriminate|exact (G2 _ _ _ _ I)].
    - intros f k I. destruct (G3 f k I) as (p & J). exists p. right. exact J.
  Qed.
  Lemma hold_lc_val x l : keep (add_lc_val x l).
  Proof. destruct x; try apply hold_nop. apply hold_lc. Qed.
  Lemma hold_kwarg f k l : hosts k l -> keep (upd (fun s => u_kwargs (s_kwargs s ++ [(f, k)]) s) >> add_lc (EKw f k) l None).
  Proof.
    intros H s s' E (G1 & G2 & G3). injection E as <-. split; [exact G1|]. split; cbn.
    - intros f' k' l' c' [I|I]; [injection I as <- <- <- <-; auto|exact (G2 _ _ _ _ I)].
    - intros f' k' I. apply in_app_or in I as [I|[I|[]]]; [|injection I as <- <-; eexists; left; reflexivity].
      destruct (G3 _ _ I) as (p & J). exists p. right. exact J.
  Qed.
  Lemma hold_print lv msg ent li ve pl : keep (verbose_print_v e lv msg ent li ve pl).
  Proof.
    intros s s' E G. unfold verbose_print_v in E. destruct (violates e ve) as [[|]|]; try discriminate; [|injection E as <-; exact G].
    destruct (_ || _); [injection E as <-; exact G|].
    match type of E with (let '(_, _) := ?q in _) = _ => destruct q end. injection E as <-. exact G.
  Qed.
End Lines.

Ltac stilly := intros ?s; split; [reflexivity|split; [reflexivity|apply incl_refl]].
Ltac h1 :=
  lazymatch goal with
  | |- hold _ _ nop => apply hold_nop
  | |- hold _ _ (fail _) => apply hold_fail
  | |- hold _ _ (upd _ >> add_lc (EKw _ _) _ _) => apply hold_kwarg
  | |- hold _ _ (_ >> _) => apply hold_seq
  | |- hold _ _ (set_flag _) => apply hold_flag
  | |- hold _ _ (when _ _) => apply hold_when
  | |- hold _ _ (rd _) => apply hold_rd; intros ?s ?G
  | |- hold _ _ (scoped _) => apply hold_scoped
  | |- hold _ _ (with_res _ _) => apply hold_with_res; intros ?r
  | |- hold _ _ (unless_no_line _ _ _) => apply hold_no_line
  | |- hold _ _ (each _ _) => apply hold_each; intros ?x ?I
  | |- hold _ _ (vv _ _ _) => apply hold_print
  | |- hold _ _ (vv_pl _ _ _ _) => apply hold_print
  | |- hold _ _ (vvv _ _ _) => apply hold_print
  | |- hold _ _ (vv_msg _ _) => apply hold_print
  | |- hold _ _ (vvvv _ _) => apply hold_print
  | |- hold _ _ (vvl _ _ _ _) => apply hold_print
  | |- hold _ _ (vvl_pl _ _ _ _) => apply hold_print
  | |- hold _ _ (vvl_msg _ _ _) => apply hold_print
  | |- hold _ _ (add_lc (EStr _) _ _) => apply hold_lc
  | |- hold _ _ (add_lc_val _ _) => apply hold_lc_val
  | |- hold _ _ (upd _) => apply hold_upd; stilly
  | |- hold _ _ (if ?b then _ else _) => destruct b
  | |- hold _ _ (match ?x with _ => _ end) => destruct x eqn:?
  end.

Lemma hold_annotations e root A l args : hold root A (arg_annotations e l args).
Proof. induction args as [|a r IH]; cbn [arg_annotations]; repeat h1; exact IH. Qed.

Ltac hleaf :=
  lazymatch goal with
  | |- hold _ _ (generic_visit _ _ _) => assumption
  | |- hold _ _ (arg_annotations _ _ _) => apply hold_annotations
  | |- hold _ _ (k_visit _) => match goal with KT : _ -> forall x, In x (k_list (kid "finalbody" _)) -> _ |- _ => apply (KT eq_refl); assumption end
  | |- hold _ _ (k_gvisit _) => match goal with KG : forall x, In x (k_list (kid "body" _)) -> _ |- _ => apply KG; assumption end
  | HK : _ -> forall l, _ l -> hosts _ _ l, G : fine _ _ ?s |- hosts _ _ (s_line ?s) => exact (HK eq_refl _ (proj1 G))
  end.
Ltac hdeep := repeat first [h1 | hleaf | progress unfold add_module, add_member, add_kwargs, add_user_func_deco, add_typecodes, check_codecs_function,
      add_name_res_type, add_user_def_node, add_target_defs, add_name_res_assign, add_names_as_members, generic_match, add_user_def, add_name_res,
      add_codecs_error_handler, add_codecs_encoding, when_const, add_ceh, add_cenc, add_array_typecode, gen_unpacking].

Lemma hold_handler e root A k u pos fs ks :
  hold root A (generic_visit e (VNode k u pos fs) ks) ->
  hold root A (generic_visit e (without_returns (VNode k u pos fs)) (drop_returns ks)) ->
  (k = KTry -> forall x, In x (k_list (kid "finalbody" ks)) -> hold root A (k_visit x)) ->
  (forall x, In x (k_list (kid "body" ks)) -> hold root A (k_gvisit x)) ->
  (k = Kkeyword -> forall l, A l -> hosts root (as_ostr (fld "arg" fs)) l) ->
  hold root A (handler e k u pos fs ks).
Proof.
  intros KF KD KT KG HK.
  destruct k; cbn [handler]; try exact KF; try apply hold_nop.
  all: unf; hdeep.
Qed.

(** ** Trees *)
Section Trees.
  Variables (e : env) (root : pyval).
  Hypothesis NV : c_print_visits (e_cfg e) = false.
  Hypothesis PT : placed_tree root.
  Hypothesis GR : arguments_in_calls root.

  Definition visitable (A : Z -> Prop) (x : pyval) : Prop :=
    (forall l, within x l -> A l) /\ (isa Kkeyword x -> forall l, A l -> hosts root (as_ostr (attr "arg" x)) l).
  Definition held (x : pyval) : Prop := forall A,
    (visitable A x -> hold root A (k_visit (sem e x))) /\
    ((forall l, within x l -> A l) -> hold root A (k_gvisit (sem e x))) /\
    (visitable A x -> (forall y, In y (as_list x) -> visitable A y) -> hold root A (visit_field (sem e x))).

  Lemma within_field k u p fs f x l : In (f, x) fs -> within x l -> within (VNode k u p fs) l.
  Proof. intros I (m & c & B & P). exists m, c. split; [exact (below_field _ _ _ _ _ _ _ I B)|exact P]. Qed.
  Lemma within_item xs x l : In x xs -> within x l -> within (VList xs) l.
  Proof. intros I (m & c & B & P). exists m, c. split; [exact (below_item _ _ _ I B)|exact P]. Qed.
  Lemma within_own k u l c fs : within (VNode k u (Some (l, c)) fs) l.
  Proof. exists (VNode k u (Some (l, c)) fs), c. split; [apply below_here; reflexivity|reflexivity]. Qed.

  Lemma fine_mono (A B : Z -> Prop) s : (forall l, A l -> B l) -> fine root A s -> fine root B s.
  Proof. intros H (X & Y). split; auto. Qed.
  Lemma generic_held k u p fs fs' ks (A : Z -> Prop) : (forall l, within (VNode k u p fs) l -> A l) ->
    hold root (match p with Some _ => within (VNode k u p fs) | None => A end) (visit_fields ks) ->
    hold root A (generic_visit e (VNode k u p fs') ks).
  Proof.
    intros W H. unfold generic_visit. rewrite NV. cbn [andb when pos_of]. destruct p as [[l c]|].
    - intros s s' E G. destruct (seq_ok _ _ _ _ E) as (s1 & E1 & E2). injection E1 as <-.
      apply (fine_mono (within (VNode k u (Some (l, c)) fs))); [exact W|]. revert E2.
      assert (G' : fine root (within (VNode k u (Some (l, c)) fs)) (u_line l s)).
      { destruct G as (_ & G2 & G3). split; [apply within_own|]. auto. }
      intros E2. refine ((_ : hold root _ _) _ _ E2 G'). clear -H. apply hold_seq; [h1|]. apply hold_seq; [apply hold_nop|].
      apply hold_seq; [exact H|h1].
    - apply hold_seq; [apply hold_nop|]. apply hold_seq; [h1|]. apply hold_seq; [apply hold_nop|]. apply hold_seq; [exact H|h1].
  Qed.

  Lemma held_kids (A : Z -> Prop) k u p fs : below (VNode k u p fs) root -> (forall l, within (VNode k u p fs) l -> A l) ->
    (forall f x, In (f, x) fs -> held x) ->
    hold root (match p with Some _ => within (VNode k u p fs) | None => A end) (visit_fields (map (fun fx => (fst fx, sem e (snd fx))) fs)) /\
    hold root (match p with Some _ => within (VNode k u p fs) | None => A end) (visit_fields (drop_returns (map (fun fx => (fst fx, sem e (snd fx))) fs))).
  Proof.
    intros BV W HF. set (A' := match p with Some _ => _ | None => A end).
    assert (WA : forall l, within (VNode k u p fs) l -> A' l) by (unfold A'; destruct p; auto).
    assert (Ho : forall f x y, In (f, x) fs -> x = y \/ In y (as_list x) -> isa Kkeyword y -> forall l, A' l -> hosts root (as_ostr (attr "arg" y)) l).
    { intros f x y I J K. pose proof (proj2 GR _ _ _ _ BV I J K) as (K' & C & N). intros l Al k' Ek. exists (VNode k u p fs), y.
      split; [exact BV|]. split; [split; auto|]. split; [exact Ek|]. unfold A' in Al. destruct p as [q|]; [exact Al|].
      destruct (proj1 PT k u None fs BV); [|reflexivity]. intros H. destruct C as [C|C]; destruct k; try discriminate C; cbn in H; intuition discriminate. }
    assert (Hf : forall f x, In (f, x) fs -> hold root A' (visit_field (sem e x))).
    { intros f x I. apply (HF f x I).
      - split; [intros l Wl; apply WA; exact (within_field _ _ _ _ _ _ _ I Wl)|]. intros K. apply (Ho f x x I); auto.
      - intros y J. split; [|intros K; apply (Ho f x y I); auto]. intros l Wl. apply WA, (within_field _ _ _ _ _ _ _ I).
        destruct x; try destruct J. exact (within_item _ _ _ J Wl). }
    split; apply hold_each; intros [f x] I.
    - apply in_map_iff in I as ([g y] & E & I). injection E as <- <-. exact (Hf g y I).
    - unfold drop_returns in I. rewrite map_map in I. apply in_map_iff in I as ([g y] & E & I). cbn [fst snd] in E.
      destruct (g =? "returns")%string; injection E as <- <-; [apply hold_nop|exact (Hf g y I)].
  Qed.

  Lemma held_sem v : (forall n, below n v -> below n root) -> held v /\ forall y, In y (as_list v) -> held y.
  Proof.
    induction v as [ |b|z|s|s|s|s| |l IH|k u p fs IH] using pyval_rect'; intros B;
      try (split; [intros A; split; [|split]; intros; apply hold_nop|intros y []]).
    - rewrite Forall_forall in IH.
      assert (HI : forall y, In y l -> held y).
      { intros y I. refine (proj1 (IH y I _)). intros n Bn. apply B. exact (below_item _ _ _ I Bn). }
      split; [|exact HI]. intros A. cbn [sem]. split; [intros; apply hold_nop|]. split; [intros; apply hold_nop|].
      intros _ V. apply hold_each. intros x I. apply in_map_iff in I as (y & <- & I). apply (HI y I A), V, I.
    - rewrite Forall_forall in IH. split; [|intros y []]. intros A. cbn [sem]. set (ks := map _ fs).
      assert (BV : below (VNode k u p fs) root) by (apply B, below_here; reflexivity).
      assert (HF : forall f y, In (f, y) fs -> held y /\ forall z, In z (as_list y) -> held z).
      { intros f y I. apply (IH (f, y) I). intros n Bn. apply B. exact (below_field _ _ _ _ _ _ _ I Bn). }
      assert (KL : forall f x, In x (k_list (kid f ks)) -> exists g w y, In (g, w) fs /\ In y (as_list w) /\ x = sem e y).
      { intros f x I. unfold kid in I. destruct (assoc f ks) as [q|] eqn:Q; [|destruct I]. apply assoc_In in Q.
        apply in_map_iff in Q as ([g w] & E & Q). injection E as _ <-. destruct w as [ | | | | | | | |xs|]; try destruct I.
        apply in_map_iff in I as (y & <- & I). exists g, (VList xs), y. auto. }
      assert (Ge : (forall l, within (VNode k u p fs) l -> A l) -> hold root A (generic_visit e (VNode k u p fs) ks)).
      { intros W. apply (generic_held k u p fs fs); [exact W|]. apply (held_kids A k u p fs BV W). intros f x I. exact (proj1 (HF f x I)). }
      assert (Wi : (forall l, within (VNode k u p fs) l -> A l) -> forall g w y, In (g, w) fs -> In y (as_list w) -> forall l, within y l -> A l).
      { intros W g w y I J l Wl. apply W, (within_field _ _ _ _ _ _ _ I). destruct w; try destruct J. exact (within_item _ _ _ J Wl). }
      assert (S : visitable A (VNode k u p fs) -> hold root A (handler e k u p fs ks)).
      { intros [W HK]. apply hold_handler.
        - exact (Ge W).
        - cbn [without_returns]. apply (generic_held k u p fs); [exact W|]. apply (held_kids A k u p fs BV W). intros f x I. exact (proj1 (HF f x I)).
        - intros -> x I. destruct (KL _ _ I) as (g & w & y & I1 & I2 & ->). apply (proj1 (proj2 (HF g w I1) y I2 A)). split; [exact (Wi W g w y I1 I2)|].
          intros Ky. pose proof (proj2 GR _ _ _ _ BV I1 (or_intror I2) Ky) as (_ & [C|C] & _); discriminate C.
        - intros x I. destruct (KL _ _ I) as (g & w & y & I1 & I2 & ->). apply (proj1 (proj2 (proj2 (HF g w I1) y I2 A))). exact (Wi W g w y I1 I2).
        - intros ->. exact (HK eq_refl). }
      split; [exact S|]. split; [exact Ge|]. intros V _. exact (S V).
  Qed.
  Lemma fine_tour s : tour e root = Ok s -> fine root (line_of root) s.
  Proof.
    intros T. unfold tour in T. assert (H : hold root (line_of root) (visit e root >> after_visit_all e)).
    - apply hold_seq.
      + apply (proj1 (held_sem root (fun n B => B))). split; [intros l (m & c & X); right; exists m, c; exact X|].
        intros K. destruct (proj1 GR K).
      + unfold after_visit_all, drop_user_def. repeat h1.
        all: apply hold_upd; intros z; split; [reflexivity|split; [reflexivity|]]; cbn -[filter]; intros y I; try (apply filter_In in I as [I _]); exact I.
    - apply (H _ _ T). split; [left; reflexivity|]. split; [intros f k l c []|intros f k []].
  Qed.
End Trees.

(** ** The lines printed *)
Lemma kw_eqb_eq f k x : entity_eqb (EKw f k) x = true -> x = EKw f k.
Proof.
  destruct x as [x|g j]; [discriminate|]. cbn. intros E. apply andb_true_iff in E as [E1 E2]. apply String.eqb_eq in E1 as ->.
  destruct k, j; try discriminate; [apply String.eqb_eq in E2 as ->|]; reflexivity.
Qed.
Lemma kwarg_found s f k p : In (EKw f (Some k), p) (s_lcs s) -> exists l c, lookup_lc (EKw f (Some k)) s = Some (l, c) /\ In (EKw f (Some k), (l, c)) (s_lcs s).
Proof.
  intros I. unfold lookup_lc. destruct (find _ (s_lcs s)) as [[y [l c]]|] eqn:F.
  - apply find_some in F as [J E]. cbn [fst] in E. apply kw_eqb_eq in E as ->. exists l, c. auto.
  - apply find_none with (x := (EKw f (Some k), p)) in F; [|exact I]. cbn in F. rewrite !String.eqb_refl in F. discriminate.
Qed.

Section Said.
  Variables (e : env) (v : pyval) (s : st) (m : mins) (s' : st).
  Notation cfg := (e_cfg e).
  Hypothesis NV : c_print_visits cfg = false.
  Hypothesis PT : placed_tree v.
  Hypothesis GR : arguments_in_calls v.
  Hypothesis T : tour e v = Ok s.
  Hypothesis M : minimum_versions e s = Ok (m, s').
  Hypothesis V3 : 3 <= c_verbose cfg.

  Lemma kw_spot f k r y : In (f, Some k) (s_kwargs s) -> line_for e s r ("'" +++ f +++ "(" +++ k +++ ")'") (EKw f (Some k)) y ->
    said_in_call e v f k r y.
  Proof.
    intros I (z & c & -> & W & _). destruct (fine_tour e v NV PT GR s T) as (_ & B & K). destruct (K _ _ I) as (p & J).
    destruct (kwarg_found _ _ _ _ J) as (l & c' & El & Il). destruct (B _ _ _ _ Il) as (_ & H).
    pose proof (H k eq_refl) as (h & n & Bh & D & E & (x & col & Bx & P)).
    assert (N : l <> -1) by (pose proof (proj2 (proj2 PT) x l col (below_trans _ _ _ Bx Bh) P); lia).
    rewrite (W _ _ El V3 N). exists l, c. split; [reflexivity|]. exact (H k eq_refl).
  Qed.
  Lemma all_lines : exists lines, s_out s' = s_out s ++ lines /\ forall y, In y lines ->
    y = format_output_line cfg "print(expr)" (e_path e) None None (Some (both 0 0)) None \/
    (exists x msg r, finding (bps_of e) s x msg r /\ said_where_used e v x msg r y) \/
    (exists f k r, In (f, Some k) (s_kwargs s) /\ kwarg_req (bps_of e) (f, k) = Some r /\ said_in_call e v f k r y).
  Proof.
    destruct (two_halves e s m s' M) as (s1 & first & lines & O1 & Fi & O2 & Q & _). exists (first ++ lines).
    split; [rewrite O2, O1, app_assoc; reflexivity|]. intros y I. apply in_app_or in I as [I|I]; [left; exact (Fi y I)|]. right.
    destruct (Q y I) as (r & i & x & J & D). apply step_finding in J as [(t & -> & F)|(f & k & -> & J & A & ->)].
    - left. exists t, i, r. split; [exact F|]. exact (line_spot e v s t i r y NV PT T V3 F D).
    - right. exists f, k, r. split; [exact J|]. split; [exact A|]. exact (kw_spot f k r y J D).
  Qed.
  Lemma each_keyword_said f k r : outspoken cfg -> In (f, Some k) (s_kwargs s) -> kwarg_req (bps_of e) (f, k) = Some r -> on_show cfg r ->
    exists y, In y (s_out s') /\ said_in_call e v f k r y.
  Proof.
    intros Ou I A Sh. destruct (two_halves e s m s' M) as (s1 & first & lines & O1 & _ & O2 & _ & R).
    destruct (R r ("'" +++ f +++ "(" +++ k +++ ")'") (EKw f (Some k))) as (y & J & D); [|exact Ou|apply on_show_violates, Sh|].
    - apply step_finding. right. exists f, k. auto.
    - exists y. split; [rewrite O2; apply in_or_app; right; exact J|]. exact (kw_spot f k r y I D).
  Qed.
End Said.
