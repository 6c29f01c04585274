(** Lemmas for C32, C33. *)
From Verif Require Import PyBase PyLemmas Utility RulesData Rules Config Formats Parser Spec_Base
  Spec_Detection Spec_Parser Proof_Strings Proof_Detection.

(** ** Comment texts *)
Lemma word_no_blank : forall w, w = "novm" \/ w = "novermin" ->
  forall u x v, w = u +++ String x v -> is_space x = false /\ x <> "#"%char.
Proof.
  intros w H u x v E. apply (f_equal chars) in E. rewrite chars_app in E.
  assert (I : In x (chars w)) by (rewrite E; apply in_app_iff; right; left; auto).
  destruct H; subst w; cbn in I; repeat (destruct I as [<-|I]; [split; [reflexivity|discriminate]|]); destruct I.
Qed.

Lemma blanks_no_hash : forall ws a b, blanks ws -> ws = a +++ String "#" b -> False.
Proof. intros ws a b B E. specialize (B _ _ _ E). discriminate. Qed.

(** A text starts with an exclusion. *)
Definition starts_marked (s : string) : Prop :=
  exists ws w v, s = ws +++ w +++ v /\ blanks ws /\ (w = "novm" \/ w = "novermin").

Lemma lstrip_word : forall ws w v, blanks ws -> (w = "novm" \/ w = "novermin") ->
  lstrip (ws +++ w +++ v) = w +++ v.
Proof.
  intros ws w v B W. destruct W as [-> | ->]; apply lstrip_app; auto.
Qed.

Lemma is_novm_iff : forall s, is_novm (strip s) = true <-> starts_marked s.
Proof.
  intros s. unfold is_novm, strip, starts_marked. rewrite orb_true_iff, !startswith_iff. split.
  - intros H. destruct (lstrip_spec s) as (ws & W1 & W2 & W3).
    destruct (rstrip_spec (lstrip s)) as (ws' & W4 & _).
    destruct H as [[b H]|[b H]]; rewrite H in W4.
    + exists ws, "novermin", (b +++ ws'). split; auto. rewrite W1, W4 at 1. rewrite !app_assoc_s. auto.
    + exists ws, "novm", (b +++ ws'). split; auto. rewrite W1, W4 at 1. rewrite !app_assoc_s. auto.
  - intros (ws & w & v & -> & B & W). rewrite lstrip_word; auto.
    destruct (rstrip_occurs w "" v) as [b' E].
    + intros u x t H. apply (word_no_blank w W _ _ _ H).
    + destruct W; subst w; discriminate.
    + change ("" +++ w +++ v) with (w +++ v) in E. rewrite E. destruct W; subst w; [right|left]; exists b'; auto.
Qed.

(** The text up to the first hash decides. *)
Lemma starts_marked_seg : forall seg t, starts_marked seg -> starts_marked (seg +++ t).
Proof.
  intros seg t (ws & w & v & -> & B & W). exists ws, w, (v +++ t). rewrite !app_assoc_s. auto.
Qed.
Lemma app_overlap : forall (a b u v : string), a +++ b = u +++ v ->
  (exists w, u = a +++ w /\ b = w +++ v) \/ (exists w, a = u +++ w /\ v = w +++ b).
Proof.
  induction a as [|x a IH]; intros b u v E.
  - left. exists u. auto.
  - destruct u as [|y u].
    + right. exists (String x a). auto.
    + inversion E as [[E1 E2]]; subst. destruct (IH _ _ _ E2) as [(w & -> & ->)|(w & -> & ->)].
      * left. exists w. auto.
      * right. exists w. auto.
Qed.

Lemma starts_marked_cut : forall seg t, starts_marked (seg +++ String "#" t) -> starts_marked seg.
Proof.
  intros seg t (ws & w & v & E & B & W).
  rewrite <- app_assoc_s in E. symmetry in E. apply app_overlap in E as [(x & E1 & E2)|(x & E1 & E2)].
  - exists ws, w, x. rewrite E1, app_assoc_s. auto.
  - destruct x as [|y x].
    + rewrite app_nil_s in E1. exists ws, w, "". rewrite app_nil_s. auto.
    + exfalso. inversion E2; subst y. apply app_overlap in E1 as [(z & F1 & F2)|(z & F1 & F2)].
      * destruct (word_no_blank w W z "#" x F2). congruence.
      * destruct z as [|y z].
        { simpl in F2. destruct W; subst w; discriminate. }
        inversion F2; subst y. eapply blanks_no_hash; [exact B|]. exact F1.
Qed.

Definition marks_after (t : string) : Prop := marks (String "#" t).

Lemma split_head : forall ch t,
  (split_char ch t = [t] /\ no_char ch t) \/
  exists seg r, t = seg +++ String ch r /\ no_char ch seg /\ split_char ch t = seg :: split_char ch r.
Proof.
  intros ch. unfold split_char. induction t as [|x t IH].
  - left. split; auto. intros [] b H; discriminate.
  - cbn [split_on]. destruct (Ascii.eqb ch x) eqn:E.
    + apply Ascii.eqb_eq in E. subst x. right. exists "", t. split; auto. split; auto. intros [] b H; discriminate.
    + assert (X : forall s, no_char ch s -> no_char ch (String x s)).
      { intros s N [|y a] b H; inversion H; subst; [rewrite Ascii.eqb_refl in E; discriminate|]. eapply N; eauto. }
      destruct IH as [[E1 N]|(seg & r & -> & N & E1)].
      * left. rewrite E1. split; auto.
      * right. exists (String x seg), r. rewrite E1. auto.
Qed.

Lemma marks_split : forall n t, (String.length t <= n)%nat ->
  (existsb (fun seg => is_novm (strip seg)) (split_char "#" t) = true <-> marks_after t).
Proof.
  induction n as [|n IH]; intros t L.
  - destruct t; simpl in L; [|lia]. cbn. split; [discriminate|].
    intros (p & ws & w & v & E & _ & W). exfalso. destruct p as [|x p].
    + cbn in E. inversion E as [[E1]]. destruct ws; [|discriminate]. destruct W; subst w; discriminate.
    + inversion E as [[E1 E2]]. destruct p; discriminate.
  - destruct (split_head "#" t) as [[E N]|(seg & r & -> & N & E)]; rewrite E; cbn [existsb].
    + rewrite orb_false_r, is_novm_iff. unfold marks_after, marks. split.
      * intros (ws & w & v & Et & B & W). exists "", ws, w, v. rewrite Et. auto.
      * intros (p & ws & w & v & Et & B & W). destruct p as [|x p].
        { exists ws, w, v. inversion Et; auto. }
        { exfalso. inversion Et as [[E1 E2]]. apply (N p (ws +++ w +++ v)). auto. }
    + assert (Lr : (String.length r <= n)%nat).
      { rewrite length_app_s in L. simpl in L. lia. }
      rewrite orb_true_iff, is_novm_iff, (IH r Lr). unfold marks_after, marks. split.
      * intros [S|(p & ws & w & v & Er & B & W)].
        { apply (starts_marked_seg _ (String "#" r)) in S as (ws & w & v & Es & B & W).
          exists "", ws, w, v. split; auto. rewrite Es. auto. }
        { exists (String "#" (seg +++ p)), ws, w, v. split; auto. cbn. f_equal. rewrite app_assoc_s, Er. auto. }
      * intros (p & ws & w & v & Et & B & W). destruct p as [|x p].
        { left. apply (starts_marked_cut seg r). exists ws, w, v. inversion Et; auto. }
        { right. inversion Et as [[E1 E2]].
          apply app_overlap in E2 as [(z & F1 & F2)|(z & F1 & F2)].
          - exists z, ws, w, v. auto.
          - destruct z as [|y z].
            + cbn in F2. inversion F2 as [[F3]]. exists "", ws, w, v. rewrite F3. auto.
            + exfalso. inversion F2 as [[F3 F4]]. subst y. apply (N p z). auto. }
Qed.

Lemma lstrip_before : forall a x r, is_space x = false -> lstrip (a +++ String x r) = lstrip a +++ String x r.
Proof.
  induction a as [|y a IH]; intros x r H; cbn [lstrip str_app String.append].
  - rewrite H; auto.
  - destruct (is_space y); auto.
Qed.

Lemma marks_lstrip : forall t, marks_after (lstrip t) <-> marks_after t.
Proof.
  intros t. unfold marks_after, marks. split.
  - intros (p & ws & w & v & E & B & W). destruct (lstrip_spec t) as (w0 & W1 & W2 & _).
    destruct p as [|x p].
    + inversion E as [E1]. exists "", (w0 +++ ws), w, v. split; [rewrite W1 at 1; rewrite E1; cbn; rewrite app_assoc_s; auto|].
      split; auto. intros a x b F. apply app_overlap in F as [(z & F1 & F2)|(z & F1 & F2)].
      * eapply B; eauto.
      * destruct z as [|y z].
        { cbn in F2. eapply (B "" x b). auto. }
        { inversion F2; subst. eapply W2; eauto. }
    + inversion E as [[E1 E2]]. subst x. exists (String "#" (w0 +++ p)), ws, w, v. split; auto.
      rewrite W1 at 1. rewrite E2. cbn. rewrite app_assoc_s. auto.
  - intros (p & ws & w & v & E & B & W). destruct p as [|x p].
    + inversion E as [E1]. subst t. rewrite lstrip_word; auto. exists "", "", w, v.
      split; auto. split; auto. intros [] ? ? F; discriminate.
    + inversion E as [[E1 E2]]. subst x t. change ("#" +++ ws +++ w +++ v) with (String "#" (ws +++ w +++ v)).
      rewrite lstrip_before; auto. exists (String "#" (lstrip p)), ws, w, v. auto.
Qed.

Lemma marks_rstrip : forall t, marks_after (rstrip t) <-> marks_after t.
Proof.
  intros t. unfold marks_after, marks. split.
  - intros (p & ws & w & v & E & B & W). destruct (rstrip_spec t) as (w0 & W1 & W2).
    exists p, ws, w, (v +++ w0). split; auto. rewrite W1 at 1.
    change (String "#" (rstrip t +++ w0)) with (String "#" (rstrip t) +++ w0). rewrite E. rewrite !app_assoc_s. auto.
  - intros (p & ws & w & v & E & B & W).
    destruct (rstrip_occurs w (p +++ "#" +++ ws) v) as [b' F].
    + intros u x s H. apply (word_no_blank w W _ _ _ H).
    + destruct W; subst w; discriminate.
    + rewrite !app_assoc_s in F. change (String "#" ws +++ w +++ v) with ("#" +++ ws +++ w +++ v) in F.
      rewrite <- E in F. exists p, ws, w, b'. split; auto.
      rewrite <- F. cbn [rstrip]. destruct (rstrip t); auto.
Qed.

Lemma comment_marks_iff : forall s, begins "#" s -> (comment_marks s = true <-> marks s).
Proof.
  intros s [r ->]. unfold comment_marks. cbn [str_app String.append sdrop].
  change (String.append "" r) with r.
  rewrite (marks_split _ _ (le_n _)). unfold strip. rewrite marks_rstrip, marks_lstrip. reflexivity.
Qed.

(** ** The token loop *)
Lemma endswith_iff : forall t s, endswith t s = true <-> exists a, s = a +++ t.
Proof.
  intros t. induction s as [|x s IH].
  - cbn [endswith]. rewrite orb_false_r, String.eqb_eq. split.
    + intros ->. exists ""; auto.
    + intros [a E]. symmetry in E. apply append_eq_nil in E as [_ E]. auto.
  - cbn [endswith]. rewrite orb_true_iff, String.eqb_eq, IH. split.
    + intros [->|[a ->]]; [exists ""|exists (String x a)]; auto.
    + intros [[|y a] E]; [left; auto|]. inversion E; subst. right. eauto.
Qed.

Lemma triple_iff : forall s, triple_quoted s = true <-> triple s.
Proof.
  intros s. unfold triple_quoted, triple.
  rewrite orb_true_iff, !andb_true_iff, !startswith_iff, !endswith_iff. split.
  - intros [[A B]|[A B]]; [exists dq3|exists sq3]; auto.
  - intros (q & [-> | ->] & A & B); auto.
Qed.

Definition tok_cstate (pre : list token) (s : cstate) : Prop :=
  let '(prev, ml, nov) := s in
  (prev = true <-> exists p x, pre = p ++ [x] /\ (tk_type x = TkNewline \/ tk_type x = TkNl)) /\
  (forall a b, ml = Some (a, b) -> exists t, follows pre t /\ tk_row t = a /\ tk_end t = b) /\
  (ml = None -> forall t, ~ follows pre t) /\
  (forall n, In n nov <-> excluded_line pre n).

Lemma follows_unique : forall pre a b, follows pre a -> follows pre b -> a = b.
Proof.
  intros pre a b (p1 & p2 & E & A1 & A2 & A3) (q1 & q2 & F & B1 & B2 & B3). subst pre.
  assert (X : forall (p1 q1 p2 q2 : list token) a b, p1 ++ a :: p2 = q1 ++ b :: q2 ->
     (p1 = q1 /\ a = b /\ p2 = q2) \/ In b p2 \/ In a q2).
  { clear. induction p1 as [|x p1 IH]; intros q1 p2 q2 a b E.
    - destruct q1 as [|y q1]; inversion E; subst; [auto|]. right; left. apply in_app_iff; right; left; auto.
    - destruct q1 as [|y q1]; inversion E; subst.
      + right; right. apply in_app_iff; right; left; auto.
      + destruct (IH _ _ _ _ _ H1) as [(-> & -> & ->)|H]; auto. }
  destruct (X _ _ _ _ _ _ F) as [(_ & -> & _)|[H|H]]; auto.
  - exfalso. apply (A3 _ H). auto.
  - exfalso. apply (B3 _ H). auto.
Qed.

Lemma follows_snoc : forall pre t s, follows (pre ++ [t]) s <->
  (s = t /\ tk_type t = TkString /\ triple (tk_string t)) \/
  (follows pre s /\ tk_type t <> TkComment /\ ~ (tk_type t = TkString /\ triple (tk_string t))).
Proof.
  intros pre t s. unfold follows. split.
  - intros (p1 & p2 & E & A & B & C).
    destruct p2 as [|y p2 _] using rev_ind.
    + apply app_inj_tail in E as [-> ->]. auto.
    + right. assert (E' : pre ++ [t] = (p1 ++ s :: p2) ++ [y]) by (rewrite <- app_assoc; exact E).
      apply app_inj_tail in E' as [-> ->]. split.
      { exists p1, p2. split; auto. split; auto. split; auto. intros z Z. apply C. apply in_app_iff; auto. }
      { apply C. apply in_app_iff; right; left; auto. }
  - intros [(-> & A & B)|((p1 & p2 & -> & A & B & C) & D & F)].
    + exists pre, []. split; [auto|]. split; [auto|]. split; [auto|]. intros z [].
    + exists p1, (p2 ++ [t]). split; [rewrite <- app_assoc; auto|]. split; auto. split; auto.
      intros z Z. apply in_app_iff in Z as [Z|[<-|[]]]; auto.
Qed.

Lemma excluded_snoc : forall pre t n, excluded_line (pre ++ [t]) n <->
  excluded_line pre n \/
  (tk_type t = TkComment /\ marks (tk_string t) /\
   exists l, line_of pre t l /\ ((alone pre t /\ n = l + 1) \/ (~ alone pre t /\ n = l))).
Proof.
  intros pre t n. split.
  - intros (p & u & post & l & E & A & B & C & D).
    destruct post as [|y post _] using rev_ind.
    + apply app_inj_tail in E as [-> ->]. right. eauto.
    + left. assert (E' : pre ++ [t] = (p ++ u :: post) ++ [y]) by (rewrite <- app_assoc; exact E).
      apply app_inj_tail in E' as [-> ->]. exists p, u, post, l. auto.
  - intros [(p & u & post & l & -> & A)|(A & B & l & C & D)].
    + exists p, u, (post ++ [t]), l. split; [rewrite <- app_assoc; auto|auto].
    + exists pre, t, [], l. auto.
Qed.

Lemma zset_add_In : forall x y l, In y (zset_add x l) <-> y = x \/ In y l.
Proof.
  intros x y l. unfold zset_add, zmem. destruct (existsb (Z.eqb x) l) eqn:E.
  - split; auto. intros [->|H]; auto. apply existsb_exists in E as (z & Z1 & Z2). apply Z.eqb_eq in Z2. subst; auto.
  - rewrite in_app_iff. simpl. intuition.
Qed.

Lemma step_cstate : forall pre s t, (tk_type t = TkComment -> begins "#" (tk_string t)) ->
  tok_cstate pre s -> tok_cstate (pre ++ [t]) (comment_step s t).
Proof.
  intros pre [[prev ml] nov] t Hc (P & M1 & M2 & N). unfold comment_step.
  assert (Pn : tk_eqb (tk_type t) TkNewline || tk_eqb (tk_type t) TkNl = true <->
    exists p x, pre ++ [t] = p ++ [x] /\ (tk_type x = TkNewline \/ tk_type x = TkNl)).
  { rewrite orb_true_iff. split.
    - intros H. exists pre, t. split; auto. destruct (tk_type t); simpl in H; intuition congruence.
    - intros (p & x & E & H). apply app_inj_tail in E as [_ <-]. destruct H as [-> | ->]; auto. }
  destruct (tk_type t) eqn:Et.
  - (* a string *)
    destruct (triple_quoted (tk_string t)) eqn:Tq.
    + apply triple_iff in Tq. split; [exact Pn|]. split; [|split].
      * intros a b E. inversion E; subst. exists t. split; auto. apply follows_snoc. left; auto.
      * discriminate.
      * intros n. rewrite excluded_snoc, N, Et. split; [auto|]. intros [H|(H & _)]; [auto|discriminate].
    + assert (Nt : ~ triple (tk_string t)) by (rewrite <- triple_iff; congruence).
      split; [exact Pn|]. split; [|split].
      * intros a b E. destruct (M1 _ _ E) as (u & F & U). exists u. split; auto. apply follows_snoc. right.
        split; auto. split; [congruence|]. tauto.
      * intros E u F. apply follows_snoc in F as [(_ & _ & F)|(F & _)]; [tauto|]. eapply M2; eauto.
      * intros n. rewrite excluded_snoc, N, Et. split; [auto|]. intros [H|(H & _)]; [auto|discriminate].
  - (* a comment *)
    specialize (Hc eq_refl).
    assert (Ln : line_of pre t (match ml with Some (a, b) => if b =? tk_row t then a else tk_row t | None => tk_row t end)).
    { unfold line_of. destruct ml as [[a b]|].
      - destruct (M1 a b eq_refl) as (u & F & <- & <-). destruct (tk_end u =? tk_row t) eqn:Eb.
        + apply Z.eqb_eq in Eb. left. eauto.
        + apply Z.eqb_neq in Eb. right. split; auto. intros v V. rewrite (follows_unique _ _ _ V F). auto.
      - right. split; auto. intros v V. exfalso. exact (M2 eq_refl v V). }
    assert (Lu : forall l l', line_of pre t l -> line_of pre t l' -> l = l').
    { intros l l' [(u & F & U & ->)|(F & ->)] [(v & G & V & ->)|(G & ->)]; auto.
      - rewrite (follows_unique _ _ _ F G). auto.
      - exfalso. exact (G _ F U).
      - exfalso. exact (F _ G V). }
    set (lno := match ml with Some (a, b) => if b =? tk_row t then a else tk_row t | None => tk_row t end) in *.
    assert (Al : prev || (tk_col t =? 0) = true <-> alone pre t).
    { rewrite orb_true_iff, P, Z.eqb_eq. unfold alone. tauto. }
    split; [exact Pn|]. split; [discriminate|]. split.
    + intros _ u F. apply follows_snoc in F as [(_ & F & _)|(_ & F & _)]; congruence.
    + intros n. rewrite excluded_snoc, <- N. apply comment_marks_iff in Hc as Hm.
      destruct (comment_marks (tk_string t)) eqn:Em.
      * rewrite zset_add_In. split.
        { intros [->|H]; [right|auto]. split; auto. split; [apply Hm; auto|]. exists lno. split; auto.
          destruct (prev || (tk_col t =? 0)) eqn:Ea.
          - left. split; auto. apply Al; auto.
          - right. split; auto. rewrite <- Al. congruence. }
        { intros [H|(_ & _ & l & L & D)]; [auto|]. left. assert (l = lno) by eauto. subst l.
          destruct (prev || (tk_col t =? 0)).
          - destruct D as [[_ D]|[D _]]; auto. exfalso. apply D, Al. auto.
          - destruct D as [[D _]|[_ D]]; auto. apply Al in D. discriminate. }
      * split; [auto|]. intros [H|(_ & H & _)]; auto. apply Hm in H. discriminate.
  - split; [exact Pn|]. split; [|split].
    + intros a b E. destruct (M1 _ _ E) as (u & F & U). exists u. split; auto. apply follows_snoc. right.
      split; auto. split; [congruence|]. intros [X _]; congruence.
    + intros E u F. apply follows_snoc in F as [(_ & F & _)|(F & _)]; [congruence|]. eapply M2; eauto.
    + intros n. rewrite excluded_snoc, N, Et. split; [auto|]. intros [H|(H & _)]; [auto|discriminate].
  - split; [exact Pn|]. split; [|split].
    + intros a b E. destruct (M1 _ _ E) as (u & F & U). exists u. split; auto. apply follows_snoc. right.
      split; auto. split; [congruence|]. intros [X _]; congruence.
    + intros E u F. apply follows_snoc in F as [(_ & F & _)|(F & _)]; [congruence|]. eapply M2; eauto.
    + intros n. rewrite excluded_snoc, N, Et. split; [auto|]. intros [H|(H & _)]; [auto|discriminate].
  - split; [exact Pn|]. split; [|split].
    + intros a b E. destruct (M1 _ _ E) as (u & F & U). exists u. split; auto. apply follows_snoc. right.
      split; auto. split; [congruence|]. intros [X _]; congruence.
    + intros E u F. apply follows_snoc in F as [(_ & F & _)|(F & _)]; [congruence|]. eapply M2; eauto.
    + intros n. rewrite excluded_snoc, N, Et. split; [auto|]. intros [H|(H & _)]; [auto|discriminate].
Qed.

Lemma comments_spec : forall toks, comment_tokens toks -> forall n, In n (comments toks) <-> excluded_line toks n.
Proof.
  intros toks W. unfold comments.
  assert (G : forall post pre s, (forall t, In t post -> tk_type t = TkComment -> begins "#" (tk_string t)) ->
    tok_cstate pre s -> tok_cstate (pre ++ post) (fold_left comment_step post s)).
  { induction post as [|t post IH]; intros pre s H I; [rewrite app_nil_r; auto|].
    simpl. replace (pre ++ t :: post) with ((pre ++ [t]) ++ post) by (rewrite <- app_assoc; auto).
    apply IH; [intros u U; apply H; right; auto|]. apply step_cstate; auto. apply H. left; auto. }
  assert (I0 : tok_cstate [] (false, None, [])).
  { split; [|split; [|split]].
    - split; [discriminate|]. intros (p & x & E & _). destruct p; discriminate.
    - discriminate.
    - intros _ t (p1 & p2 & E & _). destruct p1; discriminate.
    - intros n. split; [intros []|]. intros (p & u & post & l & E & _). destruct p; discriminate. }
  specialize (G toks [] _ W I0). simpl in G.
  destruct (fold_left comment_step toks (false, None, [])) as [[prev ml] nov]. destruct G as (_ & _ & _ & G). auto.
Qed.

(** ** Type aliases *)
Lemma skip_space_lstrip : forall s, skip_space s = lstrip s.
Proof. induction s as [|x s IH]; simpl; auto. destruct (is_space x); auto. Qed.

Lemma blanks_cons : forall x s, blanks (String x s) <-> is_space x = true /\ blanks s.
Proof.
  intros x s. split.
  - intros B. split; [apply (B "" x s); auto|]. intros a y b ->. apply (B (String x a) y b); auto.
  - intros [X B] [|z a] y b E; inversion E; subst; auto. eapply B; eauto.
Qed.

Lemma skip_space1_iff : forall s t, (forall x r, t = String x r -> is_space x = false) ->
  (skip_space1 s = Some t <-> exists w, s = w +++ t /\ space1 w).
Proof.
  intros s t Ht. unfold skip_space1, space1. destruct s as [|x s].
  - split; [discriminate|]. intros (w & E & N & _). symmetry in E. apply append_eq_nil in E as [E _]. congruence.
  - rewrite skip_space_lstrip. destruct (is_space x) eqn:X.
    + split.
      * intros E. injection E as E1. destruct (lstrip_spec s) as (w & W1 & W2 & W3).
        exists (String x w). rewrite E1 in W1. split; [rewrite W1; auto|]. split; [discriminate|].
        apply blanks_cons. split; auto.
      * intros (w & E & N & B). destruct w as [|y w]; [congruence|]. inversion E as [[E1 E2]]. subst y.
        apply blanks_cons in B as [_ B]. f_equal. destruct t as [|z t].
        { rewrite app_nil_s. clear - B. induction w as [|x w IH]; auto. apply blanks_cons in B as [X B].
          cbn [lstrip]. rewrite X. auto. }
        { apply lstrip_app; [exact B|eauto]. }
    + split; [discriminate|]. intros (w & E & N & B). destruct w as [|y w]; [congruence|].
      inversion E; subst. apply blanks_cons in B as [B _]. congruence.
Qed.

Lemma ws_then_char_iff : forall s, ws_then_char s = true <->
  exists w ch r, s = w +++ String ch r /\ space1 w /\ ch <> ascii_of_nat 10.
Proof.
  induction s as [|x s IH]; cbn [ws_then_char].
  - split; [discriminate|]. intros (w & ch & r & E & (N & _) & _). symmetry in E. apply append_eq_nil in E as [E _]. congruence.
  - rewrite andb_true_iff. split.
    + intros [X H]. destruct s as [|y s]; [discriminate|]. apply orb_true_iff in H as [H|H].
      * apply negb_true_iff, Ascii.eqb_neq in H. exists (chr x), y, s. split; auto. split; auto.
        split; [discriminate|]. apply blanks_cons. split; auto. intros [] ? ? F; discriminate.
      * apply IH in H as (w & ch & r & E & (N & B) & Hc). exists (String x w), ch, r. rewrite E. split; auto.
        split; auto. split; [discriminate|]. apply blanks_cons. auto.
    + intros (w & ch & r & E & (N & B) & Hc). destruct w as [|z w]; [congruence|].
      injection E as E1 E2. subst z. apply blanks_cons in B as [X B]. split; auto.
      destruct s as [|y s].
      * destruct w; discriminate.
      * destruct w as [|z w].
        { injection E2 as -> ->. apply orb_true_iff. left. apply negb_true_iff, Ascii.eqb_neq. exact Hc. }
        { apply orb_true_iff. right. apply IH. exists (String z w), ch, r. split; auto. split; auto. split; [discriminate|auto]. }
Qed.

Definition eq_value (s : string) : Prop :=
  exists w ch r, s = "=" +++ w +++ String ch r /\ space1 w /\ ch <> ascii_of_nat 10.

Lemma eq_rest_iff : forall s, eq_rest s = true <-> eq_value s.
Proof.
  intros [|x s]; unfold eq_value; cbn [eq_rest].
  - split; [discriminate|]. intros (w & ch & r & E & _); discriminate.
  - rewrite andb_true_iff, Ascii.eqb_eq, ws_then_char_iff. split.
    + intros [-> (w & ch & r & -> & H)]. exists w, ch, r. auto.
    + intros (w & ch & r & E & H). inversion E; subst. split; auto. exists w, ch, r. auto.
Qed.

Lemma skip1_value : forall s, match skip_space1 s with Some t => eq_rest t | None => false end = true <->
  exists w t, s = w +++ t /\ space1 w /\ eq_value t.
Proof.
  intros s. split.
  - destruct (skip_space1 s) as [t|] eqn:E; [|discriminate]. intros H. apply eq_rest_iff in H.
    apply skip_space1_iff in E as (w & E & W); [exists w, t; auto|].
    intros x r ->. destruct H as (w & ch & r' & F & _). inversion F; subst. reflexivity.
  - intros (w & t & E & W & V).
    assert (K : skip_space1 s = Some t).
    { apply skip_space1_iff; eauto. intros x r ->. destruct V as (w' & ch & r' & F & _). inversion F; subst. reflexivity. }
    rewrite K. apply eq_rest_iff. auto.
Qed.

Lemma bracket_rest_iff : forall s seen, bracket_rest seen s = true <->
  exists body w t, s = body +++ "]" +++ w +++ t /\ no_char (ascii_of_nat 10) body /\ (seen = true \/ body <> "") /\
    space1 w /\ eq_value t.
Proof.
  induction s as [|x s IH]; intros seen; cbn [bracket_rest].
  - split; [discriminate|]. intros (body & w & t & E & _). destruct body; discriminate.
  - rewrite orb_true_iff, !andb_true_iff, IH, skip1_value, Ascii.eqb_eq, negb_true_iff, Ascii.eqb_neq. split.
    + intros [[[-> ->] (w & t & -> & W & V)]|[Hx (body & w & t & -> & Nb & _ & W & V)]].
      * exists "", w, t. split; auto. split; auto. intros [] b F; discriminate.
      * exists (String x body), w, t. split; auto. split; [|split; [right; discriminate|auto]].
        intros [|y a] b F; inversion F; subst; [congruence|]. eapply Nb; eauto.
    + intros (body & w & t & E & Nb & Sn & W & V). destruct body as [|y body].
      * inversion E as [[E1 E2]]. left. split; [|eauto]. split; auto. destruct Sn; congruence.
      * inversion E as [[E1 E2]]. subst y. right. split.
        { intros ->. apply (Nb "" body). auto. }
        { exists body, w, t. split; auto. split; auto. intros a b F. apply (Nb (String x a) b). rewrite F; auto. }
Qed.

Lemma span_spec : forall f s w r, span f s = (w, r) -> s = w +++ r /\ sall f w = true /\
  (forall x t, r = String x t -> f x = false).
Proof.
  intros f. induction s as [|x s IH]; intros w r H; simpl in H.
  - inversion H; subst. split; auto. split; auto. discriminate.
  - destruct (f x) eqn:X.
    + destruct (span f s) as [a b]. inversion H; subst. destruct (IH _ _ eq_refl) as (-> & A & B).
      split; auto. split; auto. rewrite sall_iff in *. intros [|z u] y v E; inversion E; subst; auto. eapply A; eauto.
    + inversion H; subst. split; auto. split; auto. intros y t E. inversion E; subst; auto.
Qed.

Lemma span_app : forall f w x r, sall f w = true -> f x = false -> span f (w +++ String x r) = (w, String x r).
Proof.
  intros f. induction w as [|y w IH]; intros x r A X; simpl.
  - rewrite X; auto.
  - rewrite sall_iff in A. assert (Y := A "" y w eq_refl). rewrite Y.
    rewrite IH; auto.
    apply sall_iff. intros a z b ->. apply (A (String y a) z b). auto.
Qed.

Lemma space_not_word : forall x, is_space x = true -> is_word x = false.
Proof.
  intros x H. destruct x as [[] [] [] [] [] [] [] []]; vm_compute in H; try discriminate; reflexivity.
Qed.

Lemma type_alias_iff : forall s, type_alias_match s = true <-> type_alias s.
Proof.
  intros s. unfold type_alias_match, type_alias. split.
  - destruct (startswith "type" s) eqn:E; [|discriminate]. apply startswith_iff in E as [b ->].
    change (sdrop 4 ("type" +++ b)) with b.
    destruct (skip_space1 b) as [r|] eqn:E1; [|discriminate].
    destruct (span is_word r) as [name r1] eqn:E2. apply span_spec in E2 as (-> & A & _).
    destruct (String.eqb name "") eqn:E3; [discriminate|]. apply String.eqb_neq in E3.
    destruct (skip_space1 r1) as [r2|] eqn:E4; [|discriminate]. intros H.
    rewrite sall_iff in A.
    apply skip_space1_iff in E1 as (w1 & -> & W1).
    2:{ intros x r E. destruct name as [|y name]; [congruence|]. inversion E; subst.
        destruct (is_space x) eqn:X; auto. apply space_not_word in X. rewrite (A "" x name eq_refl) in X. discriminate. }
    assert (Nb : forall x r, r2 = String x r -> is_space x = false).
    { intros x r ->. apply orb_true_iff in H as [H|H].
      - apply eq_rest_iff in H as (w & ch & t & F & _). inversion F; subst; reflexivity.
      - apply andb_true_iff in H as [H _]. apply Ascii.eqb_eq in H. subst; reflexivity. }
    apply skip_space1_iff in E4 as (w2 & -> & W2); auto.
    apply orb_true_iff in H as [H|H].
    + apply eq_rest_iff in H as (w3 & ch & t & -> & W3 & Hc).
      exists w1, name, w2, "", w3, ch, t. split; [reflexivity|]. auto 10.
    + destruct r2 as [|x r3]; [discriminate|]. apply andb_true_iff in H as [Hx H]. apply Ascii.eqb_eq in Hx. subst x.
      apply bracket_rest_iff in H as (body & w & t & -> & Nb' & [Sn|Sn] & W & (w3 & ch & t' & -> & W3 & Hc)); [discriminate|].
      exists w1, name, w2, ("[" +++ body +++ "]" +++ w), w3, ch, t'. split.
      { rewrite !app_assoc_s. reflexivity. }
      split; auto. split; auto. split; auto. split; auto. split; auto. split; auto. right. exists body, w. auto.
  - intros (w1 & name & w2 & params & w3 & ch & rest & -> & W1 & W2 & W3 & Hc & Nn & Nw & P).
    assert (S0 : startswith "type" ("type" +++ w1 +++ name +++ w2 +++ params +++ "=" +++ w3 +++ String ch rest) = true)
      by (apply startswith_iff; eauto).
    rewrite S0. change (sdrop 4 ("type" +++ w1 +++ name +++ w2 +++ params +++ "=" +++ w3 +++ String ch rest))
      with (w1 +++ name +++ w2 +++ params +++ "=" +++ w3 +++ String ch rest).
    apply sall_iff in Nw.
    assert (K1 : skip_space1 (w1 +++ name +++ w2 +++ params +++ "=" +++ w3 +++ String ch rest) =
                 Some (name +++ w2 +++ params +++ "=" +++ w3 +++ String ch rest)).
    { apply skip_space1_iff; eauto. intros x r E. destruct name as [|y name]; [congruence|]. inversion E; subst.
      destruct (is_space x) eqn:X; auto. apply space_not_word in X.
      rewrite sall_iff in Nw. rewrite (Nw "" x name eq_refl) in X. discriminate. }
    rewrite K1.
    assert (K2 : exists x r, w2 = String x r /\ is_space x = true).
    { destruct W2 as [N B]. destruct w2 as [|x r]; [congruence|]. exists x, r. split; auto. apply (B "" x r). auto. }
    destruct K2 as (x & r & E2 & X).
    assert (K3 : span is_word (name +++ w2 +++ params +++ "=" +++ w3 +++ String ch rest) =
                 (name, w2 +++ params +++ "=" +++ w3 +++ String ch rest)).
    { rewrite E2. change (String x r +++ params +++ "=" +++ w3 +++ String ch rest)
        with (String x (r +++ params +++ "=" +++ w3 +++ String ch rest)).
      apply span_app; auto. apply space_not_word; auto. }
    rewrite K3. apply String.eqb_neq in Nn. rewrite Nn.
    assert (K4 : skip_space1 (w2 +++ params +++ "=" +++ w3 +++ String ch rest) = Some (params +++ "=" +++ w3 +++ String ch rest)).
    { apply skip_space1_iff; eauto. intros y t E. destruct P as [-> |(body & w & -> & _)]; inversion E; reflexivity. }
    rewrite K4.
    assert (V : eq_value ("=" +++ w3 +++ String ch rest)) by (exists w3, ch, rest; auto).
    destruct P as [->|(body & w & -> & Ww & Nb & Nl)].
    + apply orb_true_iff. left. apply eq_rest_iff. exact V.
    + apply orb_true_iff. right.
      change (("[" +++ body +++ "]" +++ w) +++ "=" +++ w3 +++ String ch rest)
        with (String "[" ((body +++ "]" +++ w) +++ "=" +++ w3 +++ String ch rest)).
      cbv beta iota. apply andb_true_iff. split; [reflexivity|]. apply bracket_rest_iff.
      exists body, w, ("=" +++ w3 +++ String ch rest). split; [rewrite !app_assoc_s; cbn; rewrite ?app_assoc_s; reflexivity|].
      auto 10.
Qed.

Lemma verdict_iff : forall major c e m, fst (syntax_verdict major c e) = m <-> verdict major c e m.
Proof.
  intros major c e m. unfold syntax_verdict, verdict, print_statement, occurs.
  assert (T : (if fmt_eqb (c_format c) FParsable
               then escape_nl match se_text e with Some t => strip t | None => "" end
               else match se_text e with Some t => strip t | None => "" end) = error_text c e).
  { unfold error_text. destruct (c_format c); auto. }
  rewrite T.
  destruct (contains "missing parentheses in call to 'print'" (lower (se_msg e))) eqn:P.
  - apply contains_iff in P. cbn [fst]. split; [intros <-; left; auto|].
    intros [(_ & ->)|[(H & _)|(H & _)]]; auto; contradiction.
  - assert (P' : ~ exists a b, lower (se_msg e) = a +++ "missing parentheses in call to 'print'" +++ b).
    { rewrite <- contains_iff. congruence. }
    destruct (String.eqb (lower (se_msg e)) "invalid syntax" && type_alias_match (error_text c e)) eqn:A.
    + apply andb_true_iff in A as [A1 A2]. apply String.eqb_eq in A1. apply type_alias_iff in A2. cbn [fst].
      split; [intros <-; right; left; auto|].
      intros [(H & _)|[(_ & _ & _ & ->)|(_ & H & _)]]; auto; [contradiction|]. exfalso; auto.
    + assert (A' : ~ (lower (se_msg e) = "invalid syntax" /\ type_alias (error_text c e))).
      { intros [A1 A2]. apply String.eqb_eq in A1. apply type_alias_iff in A2. rewrite A1, A2 in A. discriminate. }
      cbn [fst]. split.
      * intros <-. right; right. split; auto. split; auto. destruct (c_pessimistic c).
        { destruct (major =? 2) eqn:E; [apply Z.eqb_eq in E|apply Z.eqb_neq in E]; auto 10. }
        { left. auto. }
      * intros [(H & _)|[(_ & H1 & H2 & _)|(_ & _ & H)]]; [contradiction|tauto|].
        destruct H as [[-> ->]|[(-> & -> & ->)|(-> & H & ->)]]; auto.
        apply Z.eqb_neq in H. rewrite H. auto.
Qed.
