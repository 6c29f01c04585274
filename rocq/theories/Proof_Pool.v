(** Pool.imap hands out the results in task order, whatever the workers' schedule. *)
From Coq Require Import Permutation.
From Verif Require Import PyBase PyLemmas Pool.

Section P.
  Context {A : Type}.
  Variable f : nat -> A.

  Lemma seq_snoc : forall n, map f (seq 0 n) ++ [f n] = map f (seq 0 (S n)).
  Proof. intros. rewrite <- (Nat.add_1_r n), seq_app, map_app. reflexivity. Qed.

  Definition weak_inv (done : list nat) (s : imap_state A) (got : list A) : Prop :=
    got ++ im_items s = map f (seq 0 (im_index s)) /\
    (forall k v, In (k, v) (im_unsorted s) -> v = f k /\ (im_index s <= k)%nat) /\
    NoDup (map fst (im_unsorted s)) /\
    (forall i, In i done <-> (i < im_index s)%nat \/ In i (map fst (im_unsorted s))).

  Definition inv (done : list nat) (s : imap_state A) (got : list A) : Prop :=
    weak_inv done s got /\ ~ In (im_index s) (map fst (im_unsorted s)).

  Lemma lookup_nat_Some : forall n (l : list (nat * A)) v, lookup_nat n l = Some v -> In (n, v) l.
  Proof.
    induction l as [|[k w] l IH]; simpl; intros v H; [discriminate|].
    destruct (Nat.eqb n k) eqn:E.
    - apply Nat.eqb_eq in E. inversion H; subst; auto.
    - right; auto.
  Qed.

  Lemma lookup_nat_None : forall n (l : list (nat * A)), lookup_nat n l = None -> ~ In n (map fst l).
  Proof.
    induction l as [|[k w] l IH]; simpl; intros H; [tauto|].
    destruct (Nat.eqb n k) eqn:E; [discriminate|].
    apply Nat.eqb_neq in E. intros [H1|H1]; [congruence|]. exact (IH H H1).
  Qed.

  Lemma filter_key_In : forall n (l : list (nat * A)) k v,
    In (k, v) (filter (fun e => negb (Nat.eqb n (fst e))) l) <-> In (k, v) l /\ k <> n.
  Proof.
    intros. rewrite filter_In. simpl. rewrite negb_true_iff, Nat.eqb_neq. intuition.
  Qed.

  Lemma NoDup_filter_keys : forall (g : nat * A -> bool) l, NoDup (map fst l) -> NoDup (map fst (filter g l)).
  Proof.
    induction l as [|x l IH]; simpl; intros H; auto.
    inversion H; subst. destruct (g x); simpl; auto. constructor; auto.
    intros C. apply H2. apply in_map_iff in C as [y [E Y]]. apply filter_In in Y as [Y _].
    rewrite <- E. apply in_map; auto.
  Qed.

  Lemma filter_key_length : forall n (l : list (nat * A)) v, In (n, v) l ->
    (List.length (filter (fun e => negb (Nat.eqb n (fst e))) l) < List.length l)%nat.
  Proof.
    assert (W : forall n (l : list (nat * A)),
              (List.length (filter (fun e => negb (Nat.eqb n (fst e))) l) <= List.length l)%nat).
    { induction l as [|x l IH]; simpl; auto. destruct (negb _); simpl; lia. }
    induction l as [|[k w] l IH]; simpl; intros v H; [tauto|].
    destruct H as [H|H].
    - inversion H; subst. rewrite Nat.eqb_refl. simpl. specialize (W n l). lia.
    - specialize (IH v H). specialize (W n l). destruct (negb _); simpl; lia.
  Qed.

  Lemma drain_inv : forall fuel s done got, (List.length (im_unsorted s) <= fuel)%nat ->
    weak_inv done s got -> inv done (drain fuel s) got.
  Proof.
    induction fuel as [|k IH]; intros s done got L W; simpl.
    - split; auto. destruct (im_unsorted s); simpl in *; [tauto|lia].
    - destruct (lookup_nat (im_index s) (im_unsorted s)) as [v|] eqn:E.
      + apply lookup_nat_Some in E. destruct W as (W1 & W2 & W3 & W4).
        destruct (W2 _ _ E) as [V _]. subst v.
        apply IH; [simpl; pose proof (filter_key_length _ _ _ E); lia|].
        split; [|split; [|split]]; simpl.
        * rewrite app_assoc, W1. apply seq_snoc.
        * intros i v H. apply filter_key_In in H as [H Hn]. destruct (W2 _ _ H). split; auto. lia.
        * apply NoDup_filter_keys; auto.
        * intros i. rewrite W4. split.
          -- intros [H|H]; [left; lia|]. destruct (Nat.eq_dec i (im_index s)) as [->|N]; [left; lia|].
             right. apply in_map_iff in H as [[a b] [H1 H2]]. simpl in H1; subst a.
             apply in_map_iff. exists (i, b). split; auto. apply filter_key_In; auto.
          -- intros [H|H].
             ++ destruct (Nat.eq_dec i (im_index s)) as [->|N]; [|left; lia].
                right. apply in_map_iff. eexists (_, _). split; [|exact E]. reflexivity.
             ++ right. apply in_map_iff in H as [[a b] [H1 H2]]. simpl in H1; subst a.
                apply filter_key_In in H2 as [H2 _]. apply in_map_iff. exists (i, b); auto.
      + apply lookup_nat_None in E. split; auto.
  Qed.

  Lemma set_inv : forall i s done got, ~ In i done -> inv done s got -> inv (i :: done) (imap_set i (f i) s) got.
  Proof.
    intros i s done got Ni [(W1 & W2 & W3 & W4) N]. unfold imap_set.
    destruct (Nat.eqb (im_index s) i) eqn:E.
    - apply Nat.eqb_eq in E. subst i. apply drain_inv; [simpl; auto|].
      split; [|split; [|split]]; simpl.
      + rewrite app_assoc, W1. apply seq_snoc.
      + intros k v H. destruct (W2 _ _ H). split; auto.
        assert (k <> im_index s); [|lia]. intros ->. apply N. apply in_map_iff. exists (im_index s, v); auto.
      + auto.
      + intros j. rewrite W4. split; [intros [->|[H|H]]|intros [H|H]]; auto; try lia.
    - apply Nat.eqb_neq in E. split; [split; [|split; [|split]]|]; simpl.
      + auto.
      + intros k v [H|H]; [|auto]. inversion H; subst. split; auto.
        destruct (Nat.lt_ge_cases k (im_index s)) as [L|L]; auto. exfalso. apply Ni, W4; auto.
      + constructor; auto. intros C. apply Ni, W4; auto.
      + intros j. rewrite W4. tauto.
      + intros [H|H]; [congruence|auto].
  Qed.

  Lemma run_inv : forall evs s done got s' got', inv done s got ->
    NoDup (completions evs) -> (forall i, In i (completions evs) -> ~ In i done) ->
    imap_run f evs s got = (s', got') ->
    inv (rev (completions evs) ++ done) s' got'.
  Proof.
    induction evs as [|e evs IH]; simpl; intros s done got s' got' I N D R.
    - inversion R; subst; auto.
    - destruct e as [i|].
      + simpl in N, D. inversion N; subst. simpl. rewrite <- app_assoc. simpl.
        eapply IH; [|auto| |exact R].
        * apply set_inv; auto.
        * intros j J [->|K]; [auto|]. exact (D j (or_intror J) K).
      + simpl in N, D. destruct (im_items s) as [|x xs] eqn:E.
        * eapply IH; eauto.
        * eapply IH; [|auto|auto|exact R].
          destruct I as [(W1 & W2 & W3 & W4) I2]. split; [split; [|split; [|split]]|]; simpl; auto.
          rewrite <- app_assoc. simpl. rewrite <- W1, E. reflexivity.
  Qed.

  Lemma init_inv : inv [] imap_init [].
  Proof.
    split; [split; [|split; [|split]]|]; simpl.
    - reflexivity.
    - intros k v [].
    - constructor.
    - intros i. split; [intros []|intros [H|[]]; lia].
    - intros [].
  Qed.

  Lemma imap_results : forall n evs s got, schedule n evs -> imap_run f evs imap_init [] = (s, got) ->
    got = map f (seq 0 (List.length got)) /\ (List.length got <= n)%nat.
  Proof.
    intros n evs s got [N B] R.
    assert (I := run_inv evs _ [] _ _ _ init_inv N (fun i _ H => H) R).
    destruct I as [(W1 & W2 & W3 & W4) I]. rewrite app_nil_r in W4.
    assert (L : (List.length got <= im_index s)%nat).
    { apply (f_equal (@List.length A)) in W1. rewrite app_length, map_length, seq_length in W1. lia. }
    split.
    - assert (P : forall m, (List.length got <= m)%nat -> forall r, got ++ r = map f (seq 0 m) ->
                got = map f (seq 0 (List.length got))).
      { intros m Lm r E. replace m with (List.length got + (m - List.length got))%nat in E by lia.
        rewrite seq_app, map_app in E.
        apply (f_equal (firstn (List.length got))) in E.
        rewrite firstn_app, firstn_all, Nat.sub_diag in E. simpl in E. rewrite app_nil_r in E.
        rewrite E at 1. rewrite firstn_app, map_length, seq_length, Nat.sub_diag. simpl. rewrite app_nil_r.
        rewrite firstn_all2; auto. rewrite map_length, seq_length; auto. }
      eapply P; [exact L|exact W1].
    - assert (im_index s <= n)%nat; [|lia].
      destruct (im_index s) as [|k] eqn:E; [lia|].
      assert (In k (rev (completions evs))) by (apply W4; left; lia).
      apply in_rev in H. specialize (B _ H). lia.
  Qed.

  (** Once every task has completed, everything is ready to be handed out. *)
  Lemma imap_complete : forall n evs s got, schedule n evs -> (forall i, (i < n)%nat -> In i (completions evs)) ->
    imap_run f evs imap_init [] = (s, got) ->
    got ++ im_items s = map f (seq 0 n).
  Proof.
    intros n evs s got [N B] F R.
    assert (I := run_inv evs _ [] _ _ _ init_inv N (fun i _ H => H) R).
    destruct I as [(W1 & W2 & W3 & W4) I]. rewrite app_nil_r in W4. rewrite W1. f_equal. f_equal.
    assert (G : forall i, In i (completions evs) <-> (i < n)%nat) by (split; auto).
    assert (G' : forall i, (i < n)%nat <-> (i < im_index s)%nat \/ In i (map fst (im_unsorted s))).
    { intros i. rewrite <- W4, <- in_rev, G. tauto. }
    destruct (Nat.lt_trichotomy (im_index s) n) as [L|[L|L]]; auto.
    - apply G' in L as [L|L]; [lia|]. exfalso; auto.
    - specialize (G' n). lia.
  Qed.
End P.

Lemma map_nth_seq : forall {A B} (g : A -> B) (l : list A) d,
  map (fun i => g (nth i l d)) (seq 0 (List.length l)) = map g l.
Proof.
  intros A B g l d.
  assert (H : forall pre post, map (fun i => g (nth i (pre ++ post) d)) (seq (List.length pre) (List.length post)) = map g post).
  { intros pre post. revert pre. induction post as [|x post IH]; intros pre; simpl; auto.
    f_equal.
    - rewrite app_nth2, Nat.sub_diag; auto.
    - specialize (IH (pre ++ [x])). rewrite <- app_assoc in IH. simpl in IH.
      rewrite app_length in IH. simpl in IH. rewrite Nat.add_1_r in IH. exact IH. }
  exact (H [] l).
Qed.
