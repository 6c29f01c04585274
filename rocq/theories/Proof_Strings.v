(** More string lemmas. *)
From Verif Require Import PyBase PyLemmas.

Lemma startswith_iff : forall t s, startswith t s = true <-> exists b, s = t +++ b.
Proof.
  induction t as [|a t IH]; intros s; simpl.
  - split; intros; [exists s; auto|auto].
  - destruct s as [|b s].
    + split; [discriminate|intros [x H]; discriminate].
    + rewrite andb_true_iff, Ascii.eqb_eq, IH. split.
      * intros [-> [x ->]]. exists x; auto.
      * intros [x H]. inversion H; subst. eauto.
Qed.

Lemma contains_iff : forall t s, contains t s = true <-> exists a b, s = a +++ t +++ b.
Proof.
  intros t. induction s as [|c s IH].
  - simpl. rewrite orb_false_r, startswith_iff. split.
    + intros [b H]. exists "", b; auto.
    + intros (a & b & H). destruct a; [exists b; auto|discriminate].
  - change (contains t (String c s)) with (startswith t (String c s) || contains t s).
    rewrite orb_true_iff, startswith_iff, IH. split.
    + intros [[b H]|(a & b & H)]; [exists "", b; auto|]. exists (String c a), b. rewrite H; auto.
    + intros (a & b & H). destruct a as [|x a]; [left; exists b; auto|].
      right. inversion H; subst. eauto.
Qed.

Lemma sall_app : forall f a b, sall f (a +++ b) = sall f a && sall f b.
Proof.
  intros f. unfold sall. induction a as [|c a IH]; intros b; simpl; auto.
  rewrite !negb_orb in *. rewrite negb_involutive in *. rewrite IH, andb_assoc. auto.
Qed.

Lemma sall_iff : forall f s, sall f s = true <-> forall a c b, s = a +++ String c b -> f c = true.
Proof.
  intros f s. unfold sall. split.
  - intros H a c b ->. rewrite negb_true_iff in H. revert H.
    induction a as [|x a IH]; simpl; rewrite orb_false_iff; intros [H K]; auto.
    apply negb_false_iff in H; auto.
  - intros H. rewrite negb_true_iff. revert H. induction s as [|x s IH]; simpl; intros H; auto.
    rewrite orb_false_iff. split.
    + rewrite negb_false_iff. apply (H "" x s); auto.
    + apply IH. intros a c b ->. apply (H (String x a) c b); auto.
Qed.

Lemma no_char_iff : forall ch s, sall (fun c => negb (Ascii.eqb ch c)) s = true <-> forall a b, s <> a +++ String ch b.
Proof.
  intros. rewrite sall_iff. split.
  - intros H a b E. specialize (H a ch b E). rewrite Ascii.eqb_refl in H. discriminate.
  - intros H a c b E. rewrite negb_true_iff, Ascii.eqb_neq. intros ->. exact (H a b E).
Qed.

Lemma append_eq_nil : forall a b, a +++ b = "" -> a = "" /\ b = "".
Proof. destruct a; simpl; intros; [auto|discriminate]. Qed.
