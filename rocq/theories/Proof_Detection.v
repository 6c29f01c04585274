(** Lemmas for C28-C31. *)
From Coq Require Import Permutation Sorted.
From Verif Require Import PyBase PyLemmas Utility RulesData Rules Config Paths Pool Detection Spec_Base
  Spec_Detection Proof_Pool Proof_Strings.

Lemma first_is_dot_iff : forall p, first_is_dot p = true <-> begins "." p.
Proof.
  intros [|c r]; unfold begins; simpl.
  - split; [discriminate|intros [b H]; discriminate].
  - rewrite Ascii.eqb_eq. split; [intros ->; exists r; auto|intros [b H]; inversion H; auto].
Qed.
Lemma first_is_dot_false : forall p, first_is_dot p = false <-> ~ begins "." p.
Proof. intros. rewrite <- first_is_dot_iff. destruct (first_is_dot p); intuition congruence. Qed.

Lemma normpath_nonempty : forall p, normpath p <> "".
Proof.
  intros p. unfold normpath. destruct (String.eqb p "") eqn:E; [discriminate|].
  match goal with |- (if String.eqb ?b "" then _ else _) <> _ => destruct (String.eqb b "") eqn:F end.
  - discriminate.
  - apply String.eqb_neq in F. exact F.
Qed.

Lemma path_join_nonempty : forall a n, a <> "" -> path_join a n <> "".
Proof.
  intros a n H. unfold path_join. destruct (isabs n) eqn:E.
  - destruct n; [discriminate|discriminate].
  - destruct (_ || _); intros C; apply append_eq_nil in C as [C _]; auto.
Qed.

Section D.
  Variable fs : fsys.
  Variable cwd : string.
  Variable search : string -> string -> bool.
  Variable c : config.
  Variable hidden : bool.
  Variable ignore : list string.
  Variable scan : bool.
  Notation one := (detect_one fs cwd search c hidden ignore scan).
  Notation inc := (detect_incremental fs cwd search c hidden ignore scan).
  Notation round := (detect_round fs cwd search c hidden ignore scan).
  Notation loop := (detect_loop fs cwd search c hidden ignore scan).
  Notation nlo := (not_left_out search c ignore).
  Notation act := (actual cwd c).
  Definition links (d : nat) : bool := match d with O => true | _ => scan end.

  Lemma left_out_iff : forall p,
    existsb (fun ic => contains ic p) ignore || is_excluded_by_regex search c p = false <-> nlo p.
  Proof.
    intros p. rewrite orb_false_iff. unfold not_left_out, is_excluded_by_regex.
    assert (E : forall {B} (g : B -> bool) l, existsb g l = false <-> forall x, In x l -> g x = false).
    { intros B g l. induction l as [|x l IH]; simpl.
      - split; [intros _ ? []|auto].
      - rewrite orb_false_iff, IH. split; [intros [H K] y [->|Y]; auto|auto]. }
    rewrite !E. split; intros [H K]; split; auto.
    - intros t T O. apply contains_iff in O. rewrite H in O; [discriminate|auto].
    - intros t T. destruct (contains t p) eqn:X; auto. apply contains_iff in X. exfalso. exact (H t T X).
  Qed.

  Lemma stat_folder : forall q b, stat_path fs q b = Some KDir <-> is_folder fs b q.
  Proof.
    intros q b. unfold stat_path, is_folder. destruct (fs_lstat fs q) as [[]|]; try (intuition congruence).
    destruct (fs_stat fs q) as [[]|]; destruct b; intuition congruence.
  Qed.
  Lemma stat_file : forall q b, stat_path fs q b = Some KReg <-> is_file fs q.
  Proof.
    intros q b. unfold stat_path, is_file. destruct (fs_lstat fs q) as [[]|]; try (intuition congruence).
    destruct (fs_stat fs q) as [[]|]; destruct b; intuition congruence.
  Qed.

  Lemma one_err : forall d p e, one d p = Err e <-> e = IndexError /\ p = "" /\ hidden = false /\ nlo p.
  Proof.
    intros d p e. unfold detect_one. rewrite <- left_out_iff.
    destruct (existsb _ ignore || _); [intuition congruence|].
    destruct hidden; simpl.
    - split; [|intuition congruence]. destruct (stat_path _ _ _) as [[]|]; try discriminate.
      + destruct (_ || _); discriminate.
      + destruct (fs_listdir _ _); discriminate.
    - destruct (String.eqb p ".") eqn:Ed; simpl.
      + apply String.eqb_eq in Ed. subst p. split; [|intuition congruence].
        destruct (stat_path _ _ _) as [[]|]; try discriminate.
        * destruct (_ || _); discriminate.
        * destruct (fs_listdir _ _); discriminate.
      + destruct (String.eqb p "") eqn:Ee.
        * apply String.eqb_eq in Ee. subst. intuition congruence.
        * apply String.eqb_neq in Ee. split; [|intuition congruence].
          destruct (first_is_dot p); [discriminate|].
          destruct (stat_path _ _ _) as [[]|]; try discriminate.
          -- destruct (_ || _); discriminate.
          -- destruct (fs_listdir _ _); discriminate.
  Qed.

  (** The first tests of the loop body, once the path is not empty. *)
  Lemma one_shown : forall d p, (p <> "" \/ hidden = true \/ ~ nlo p) ->
    (nlo p /\ shown hidden p /\
     one d p = match stat_path fs (act p) (links d) with
               | Some KDir =>
                   match fs_listdir fs (act p) with
                   | None => Ok FNone
                   | Some names => Ok (FFolder (map (path_join (act p))
                                     (filter (fun n => hidden || negb (first_is_dot n)) names)))
                   end
               | Some KReg => if Nat.eqb d 0 || probably_python_file fs (act p) then Ok (FAccept (act p)) else Ok FNone
               | _ => Ok FNone
               end) \/
    (~ (nlo p /\ shown hidden p) /\ one d p = Ok FNone).
  Proof.
    intros d p H. unfold detect_one.
    destruct (existsb _ ignore || _) eqn:E.
    - right. split; auto. rewrite <- left_out_iff, E. intros [C _]; discriminate.
    - assert (E' := E). apply left_out_iff in E'.
      assert (L : links d = if Nat.eqb d 0 then true else scan) by (destruct d; auto).
      rewrite L.
      destruct hidden eqn:Eh; simpl.
      + left. split; auto. split; [left; auto|]. unfold actual.
        destruct (stat_path _ _ _) as [[]|]; auto.
      + destruct (String.eqb p ".") eqn:Ed; simpl.
        * apply String.eqb_eq in Ed. left. split; auto. split; [right; left; auto|]. unfold actual.
          destruct (stat_path _ _ _) as [[]|]; auto.
        * destruct (String.eqb p "") eqn:Ee.
          { apply String.eqb_eq in Ee. destruct H as [H|[H|H]]; congruence || tauto. }
          apply String.eqb_neq in Ed. destruct (first_is_dot p) eqn:Ef.
          -- right. split; auto. intros [_ [C|[C|C]]]; try congruence.
             apply C, first_is_dot_iff; auto.
          -- apply first_is_dot_false in Ef. left. split; auto. split; [right; right; auto|]. unfold actual.
             destruct (stat_path _ _ _) as [[]|]; auto.
  Qed.

  Lemma one_accept : forall d p q, (p <> "" \/ hidden = true \/ ~ nlo p) ->
    (one d p = Ok (FAccept q) <->
     nlo p /\ shown hidden p /\ q = act p /\ is_file fs q /\ (d = O \/ probably_python_file fs q = true)).
  Proof.
    intros d p q H. destruct (one_shown d p H) as [(N & S & E)|(N & E)]; rewrite E.
    - split.
      + intros K. destruct (stat_path fs (act p) (links d)) as [[]|] eqn:Es; try discriminate.
        2:{ destruct (fs_listdir _ _); discriminate. }
        destruct (Nat.eqb d 0 || _) eqn:Ed; [|discriminate]. inversion K; subst q.
        apply stat_file in Es. apply orb_true_iff in Ed. rewrite Nat.eqb_eq in Ed. auto.
      + intros (_ & _ & -> & F & D). apply (stat_file _ (links d)) in F. rewrite F.
        destruct D as [->|D]; [reflexivity|]. rewrite D, orb_true_r; auto.
    - split; [discriminate|]. intros (A & B & _). tauto.
  Qed.

  Lemma one_folder : forall d p l, (p <> "" \/ hidden = true \/ ~ nlo p) ->
    (one d p = Ok (FFolder l) <->
     nlo p /\ shown hidden p /\ is_folder fs (links d) (act p) /\
     exists names, fs_listdir fs (act p) = Some names /\
       l = map (path_join (act p)) (filter (fun n => hidden || negb (first_is_dot n)) names)).
  Proof.
    intros d p l H. destruct (one_shown d p H) as [(N & S & E)|(N & E)]; rewrite E.
    - split.
      + intros K. destruct (stat_path fs (act p) (links d)) as [[]|] eqn:Es; try discriminate.
        1:{ destruct (_ || _); discriminate. }
        apply stat_folder in Es. destruct (fs_listdir _ _) as [names|]; [|discriminate].
        inversion K; subst. eauto 10.
      + intros (_ & _ & F & names & D & ->). apply stat_folder in F. rewrite F, D. auto.
    - split; [discriminate|]. intros (A & B & _). tauto.
  Qed.

  Lemma inc_spec : forall d ps acc further, inc d ps = Ok (acc, further) ->
    (forall q, In q acc <-> exists p, In p ps /\ one d p = Ok (FAccept q)) /\
    (forall l, In l further <-> exists p, In p ps /\ one d p = Ok (FFolder l)) /\
    (forall p e, In p ps -> one d p <> Err e).
  Proof.
    induction ps as [|p ps IH]; simpl; intros acc further H.
    - inversion H; subst. repeat split; try (intros []; fail); try (intros (? & [] & _)). intros ? ? [].
    - destruct (one d p) as [x|e] eqn:E; simpl in H; [|discriminate].
      destruct (inc d ps) as [[a1 f1]|e]; simpl in H; [|discriminate].
      destruct (IH _ _ eq_refl) as (I1 & I2 & I3).
      assert (G : forall (P : found -> Prop), (exists p', (p = p' \/ In p' ps) /\ exists y, one d p' = Ok y /\ P y) <->
               P x \/ exists p', In p' ps /\ exists y, one d p' = Ok y /\ P y).
      { intros P. split.
        - intros (p' & [->|Hp] & y & Hy & Py); [left; congruence|right; eauto].
        - intros [Px|(p' & Hp & y & Hy & Py)]; [exists p|exists p']; eauto. }
      assert (X : forall (q : found) l, (exists p', In p' l /\ one d p' = Ok q) <->
                  exists p', In p' l /\ exists y, one d p' = Ok y /\ y = q).
      { intros q l. split; intros (p' & Hp & Hy); exists p'; split; auto.
        - eauto.
        - destruct Hy as (y & Hy & ->); auto. }
      split; [|split].
      + intros q. change (exists p0, (p = p0 \/ In p0 ps) /\ one d p0 = Ok (FAccept q))
          with (exists p0, In p0 (p :: ps) /\ one d p0 = Ok (FAccept q)).
        rewrite X. simpl. rewrite (G (fun y => y = FAccept q)). rewrite <- X, <- I1.
        destruct x as [|y|y]; inversion H; subst; simpl.
        * intuition congruence.
        * split; [intros [->|K]; auto|intros [K|K]; [left; congruence|auto]].
        * intuition congruence.
      + intros q. change (exists p0, (p = p0 \/ In p0 ps) /\ one d p0 = Ok (FFolder q))
          with (exists p0, In p0 (p :: ps) /\ one d p0 = Ok (FFolder q)).
        rewrite X. simpl. rewrite (G (fun y => y = FFolder q)). rewrite <- X, <- I2.
        destruct x as [|y|y]; inversion H; subst; simpl.
        * intuition congruence.
        * intuition congruence.
        * split; [intros [->|K]; auto|intros [K|K]; [left; congruence|auto]].
      + intros p' e [->|Hp]; [congruence|eauto].
  Qed.

  Lemma inc_err : forall d ps e, inc d ps = Err e -> exists p, In p ps /\ one d p = Err e.
  Proof.
    induction ps as [|p ps IH]; simpl; intros e H; [discriminate|].
    destruct (one d p) as [x|e'] eqn:E; simpl in H.
    - destruct (inc d ps) as [[a1 f1]|e1]; simpl in H.
      + destruct x; discriminate.
      + inversion H; subst. destruct (IH _ eq_refl) as (p' & P & Q). eauto.
    - inversion H; subst. eauto.
  Qed.

  Lemma round_spec : forall d args acc further, round d args = Ok (acc, further) ->
    (forall q, In q acc <-> exists p, In p (List.concat args) /\ one d p = Ok (FAccept q)) /\
    (forall l, In l further <-> exists p, In p (List.concat args) /\ one d p = Ok (FFolder l)) /\
    (forall p e, In p (List.concat args) -> one d p <> Err e).
  Proof.
    induction args as [|a args IH]; simpl; intros acc further H.
    - inversion H; subst. repeat split; try (intros []; fail); try (intros (? & [] & _)). intros ? ? [].
    - destruct (inc d a) as [[a1 f1]|e] eqn:E; simpl in H; [|discriminate].
      destruct (round d args) as [[a2 f2]|e] eqn:E2; simpl in H; [|discriminate].
      inversion H; subst. destruct (inc_spec _ _ _ _ E) as (I1 & I2 & I3).
      destruct (IH _ _ eq_refl) as (J1 & J2 & J3).
      split; [|split].
      + intros q. rewrite in_app_iff, I1, J1. split.
        * intros [(p & P & Q)|(p & P & Q)]; exists p; rewrite in_app_iff; auto.
        * intros (p & P & Q). apply in_app_iff in P as [P|P]; eauto.
      + intros q. rewrite in_app_iff, I2, J2. split.
        * intros [(p & P & Q)|(p & P & Q)]; exists p; rewrite in_app_iff; auto.
        * intros (p & P & Q). apply in_app_iff in P as [P|P]; eauto.
      + intros p e P. apply in_app_iff in P as [P|P]; eauto.
  Qed.

  Lemma round_err : forall d args e, round d args = Err e -> exists p, In p (List.concat args) /\ one d p = Err e.
  Proof.
    induction args as [|a args IH]; simpl; intros e H; [discriminate|].
    destruct (inc d a) as [[a1 f1]|e1] eqn:E; simpl in H.
    - destruct (round d args) as [[a2 f2]|e2] eqn:E2; simpl in H; [discriminate|].
      inversion H; subst. destruct (IH _ eq_refl) as (p & P & Q). exists p. rewrite in_app_iff; auto.
    - inversion H; subst. destruct (inc_err _ _ _ E) as (p & P & Q). exists p. rewrite in_app_iff; auto.
  Qed.

  Variable paths : list string.
  Notation looked := (looked_at fs cwd search c hidden ignore scan paths).
  Definition good : Prop := hidden = true \/ ~ In "" paths \/ ~ nlo "".

  Lemma looked_nonempty : good -> forall d p, looked d p -> p <> "" \/ hidden = true \/ ~ nlo p.
  Proof.
    intros [G|G]; [auto|]. intros d p L. induction L as [p P|d p names n L IH N S F E I Hd].
    - destruct (String.eqb p "") eqn:E; [|apply String.eqb_neq in E; auto].
      apply String.eqb_eq in E; subst. destruct G; auto.
    - destruct IH as [IH|[IH|IH]]; [|auto|tauto]. left. apply path_join_nonempty. unfold actual.
      destruct (c_make_paths_absolute c); auto. apply normpath_nonempty.
  Qed.

  Lemma round_next : good -> forall d args acc further,
    (forall p, In p (List.concat args) <-> looked d p) -> round d args = Ok (acc, further) ->
    forall p, In p (List.concat further) <-> looked (S d) p.
  Proof.
    intros G d args acc further L R p. destruct (round_spec _ _ _ _ R) as (_ & R2 & _).
    rewrite in_concat. split.
    - intros (l & Hl & Hp). apply R2 in Hl as (p0 & P0 & O). apply L in P0.
      apply (one_folder d p0 l (looked_nonempty G _ _ P0)) in O as (N & S & F & names & E & ->).
      apply in_map_iff in Hp as (n & <- & Hn). apply filter_In in Hn as [Hn Hh].
      eapply LEntry; eauto.
      apply orb_true_iff in Hh as [Hh|Hh]; [left; auto|right].
      apply negb_true_iff in Hh. apply first_is_dot_false; auto.
    - intros K. inversion K as [|d' p0 names n L0 N S F E I Hd]; subst.
      exists (map (path_join (act p0)) (filter (fun n => hidden || negb (first_is_dot n)) names)). split.
      + apply R2. exists p0. split; [apply L; auto|]. apply one_folder; [eapply looked_nonempty; eauto|].
        split; auto. split; auto. split; [exact F|]. eauto.
      + apply in_map, filter_In. split; auto. destruct Hd as [->|Hd]; auto.
        apply first_is_dot_false in Hd. rewrite Hd. apply orb_true_r.
  Qed.

  Lemma looked_down : forall n d p, looked (n + d) p -> exists q, looked d q.
  Proof.
    induction n as [|n IH]; intros d p L; simpl in L; [eauto|].
    inversion L; subst; eauto.
  Qed.

  Definition found_from (d0 : nat) (q : string) : Prop :=
    exists d p, (d0 <= d)%nat /\ looked d p /\ nlo p /\ shown hidden p /\ q = act p /\ is_file fs q /\
                (d = O \/ probably_python_file fs q = true).

  Lemma loop_spec : good -> forall fuel d args r,
    (forall p, In p (List.concat args) <-> looked d p) ->
    loop fuel d args = Some r ->
    exists l, r = Ok l /\ forall q, In q l <-> found_from d q.
  Proof.
    intros G. induction fuel as [|k IH]; intros d args r L H.
    - destruct args; [|discriminate]. inversion H; subst. exists []. split; auto.
      intros q. split; [intros []|]. intros (d' & p & Hd & Lp & _).
      replace d' with ((d' - d) + d)%nat in Lp by lia. apply looked_down in Lp as (p' & Lp).
      apply L in Lp. destruct Lp.
    - destruct args as [|a args].
      + inversion H; subst. exists []. split; auto.
        intros q. split; [intros []|]. intros (d' & p & Hd & Lp & _).
        replace d' with ((d' - d) + d)%nat in Lp by lia. apply looked_down in Lp as (p' & Lp).
        apply L in Lp. destruct Lp.
      + cbn [detect_loop] in H. destruct (round d (a :: args)) as [[acc further]|e] eqn:R.
        * destruct (loop k (S d) further) as [[l|e]|] eqn:K; [| |discriminate].
          -- inversion H; subst. exists (acc ++ l). split; auto.
             destruct (IH _ _ _ (round_next G _ _ _ _ L R) K) as (l' & El & Il). inversion El; subst l'.
             intros q. rewrite in_app_iff, Il. destruct (round_spec _ _ _ _ R) as (R1 & _ & _).
             rewrite R1. split.
             ++ intros [(p & P & O)|(d' & p & Hd & X)].
                ** apply L in P. apply (one_accept d p q (looked_nonempty G _ _ P)) in O as (A & B & C & D & E).
                   exists d, p. auto 10.
                ** exists d', p. split; [lia|auto].
             ++ intros (d' & p & Hd & Lp & A & B & C & D & E).
                destruct (Nat.eq_dec d' d) as [->|Nd].
                ** left. exists p. split; [apply L; auto|]. apply one_accept; [eapply looked_nonempty; eauto|auto].
                ** right. exists d', p. split; [lia|auto 10].
          -- destruct (IH _ _ _ (round_next G _ _ _ _ L R) K) as (l' & El & Il). discriminate.
        * apply round_err in R as (p & P & O). apply L in P. apply one_err in O as (E1 & E2 & E3 & N).
          destruct (looked_nonempty G _ _ P) as [X|[X|X]]; congruence || tauto.
  Qed.

  Lemma loop_total : good -> forall n fuel d args,
    (forall p, In p (List.concat args) <-> looked d p) ->
    (forall p, ~ looked (n + d) p) -> (n < fuel)%nat -> exists r, loop fuel d args = Some r.
  Proof.
    intros G. induction n as [|n IH]; intros fuel d args L N F; destruct fuel as [|k]; try lia.
    - destruct args as [|a args]; [simpl; eauto|]. cbn [detect_loop].
      destruct (round d (a :: args)) as [[acc further]|e] eqn:R; [|eauto].
      destruct further as [|x further].
      + destruct k; simpl; eauto.
      + exfalso. destruct (round_spec _ _ _ _ R) as (_ & R2 & _).
        destruct (R2 x) as [R3 _]. destruct R3 as (p & P & _); [left; auto|]. apply L in P. exact (N p P).
    - destruct args as [|a args]; [simpl; eauto|]. cbn [detect_loop].
      destruct (round d (a :: args)) as [[acc further]|e] eqn:R; [|eauto].
      destruct (IH k (S d) further) as [r K].
      + eapply round_next; eauto.
      + intros p. rewrite <- plus_n_Sm. apply N.
      + lia.
      + rewrite K. destruct r; eauto.
  Qed.
End D.

Section Loops.
  Variable fs : fsys.
  Variable cwd : string.
  Variable search : string -> string -> bool.
  Variable c : config.
  Variable hidden : bool.
  Variable ignore : list string.
  Variable scan : bool.
  Notation inc := (detect_incremental fs cwd search c hidden ignore scan).
  Notation round := (detect_round fs cwd search c hidden ignore scan).
  Notation loop := (detect_loop fs cwd search c hidden ignore scan).
  Notation pool := (detect_pool fs cwd search c hidden ignore scan).

  Lemma loop_fuel : forall fuel d args r, loop fuel d args = Some r ->
    forall fuel', (fuel <= fuel')%nat -> loop fuel' d args = Some r.
  Proof.
    induction fuel as [|k IH]; intros d args r H fuel' F.
    - destruct args; [|discriminate]. destruct fuel'; simpl in *; auto.
    - destruct args as [|a args]; [destruct fuel'; simpl in *; auto|].
      destruct fuel' as [|k']; [lia|]. cbn [detect_loop] in *.
      destruct (round d (a :: args)) as [[acc further]|e]; auto.
      destruct (loop k (S d) further) as [r'|] eqn:K; [|discriminate].
      rewrite (IH _ _ _ K k') by lia. auto.
  Qed.

  Lemma loop_unique : forall f1 f2 d args r1 r2, loop f1 d args = Some r1 -> loop f2 d args = Some r2 -> r1 = r2.
  Proof.
    intros f1 f2 d args r1 r2 H K.
    assert (A := loop_fuel _ _ _ _ H (max f1 f2) ltac:(lia)).
    assert (B := loop_fuel _ _ _ _ K (max f1 f2) ltac:(lia)). congruence.
  Qed.

  Lemma round_collect : forall d args, round d args = collect (map (inc d) args).
  Proof.
    induction args as [|a args IH]; simpl; auto.
    destruct (inc d a) as [[acc further]|e]; simpl; auto. rewrite IH. auto.
  Qed.

  Lemma collect_prefix_err : forall a b e, collect a = Err e -> collect (a ++ b) = Err e.
  Proof.
    induction a as [|x a IH]; simpl; intros b e H; [discriminate|].
    destruct x as [[acc further]|e']; simpl in *; auto.
    destruct (collect a) as [[acc' further']|e'']; simpl in *; [discriminate|].
    rewrite (IH b e'' eq_refl). auto.
  Qed.

  Lemma pool_got : forall d args evs s got, schedule (List.length args) evs ->
    imap_run (fun i => inc d (nth i args [])) evs imap_init [] = (s, got) ->
    exists rest, map (inc d) args = got ++ rest.
  Proof.
    intros d args evs s got S R. destruct (imap_results _ _ _ _ _ S R) as [E L].
    exists (map (fun i => inc d (nth i args [])) (seq (List.length got) (List.length args - List.length got))).
    rewrite E at 1. rewrite <- map_app, <- seq_app.
    replace (List.length got + (List.length args - List.length got))%nat with (List.length args) by lia.
    symmetry. exact (map_nth_seq (inc d) args []).
  Qed.

  Lemma pool_loop : forall d args r, pool d args r -> exists fuel, loop fuel d args = Some r.
  Proof.
    intros d args r H. induction H as [d|d args evs s got acc further r Ne S R Ln C P (k & IH)|d args evs s got e Ne S R C].
    - exists O; auto.
    - destruct (pool_got _ _ _ _ _ S R) as [rest E].
      assert (rest = []) as ->.
      { apply (f_equal (@List.length _)) in E. rewrite map_length, app_length in E.
        destruct rest; auto; simpl in E; lia. }
      rewrite app_nil_r in E. subst got. rewrite <- round_collect in C.
      exists (Datatypes.S k). destruct args as [|a args]; [congruence|]. cbn [detect_loop]. rewrite C, IH.
      destruct r; auto.
    - destruct (pool_got _ _ _ _ _ S R) as [rest E].
      assert (C' := collect_prefix_err _ rest _ C). rewrite <- E, <- round_collect in C'.
      exists 1%nat. destruct args as [|a args]; [congruence|]. cbn [detect_loop]. rewrite C'. auto.
  Qed.

  (** The schedule in which all tasks finish in order before the consumer asks. *)
  Lemma in_order : forall {A} (f : nat -> A) n, exists evs s,
    schedule n evs /\ imap_run f evs imap_init [] = (s, map f (seq 0 n)).
  Proof.
    intros A f n.
    set (e1 := map Complete (seq 0 n)).
    assert (C1 : completions e1 = seq 0 n).
    { unfold e1, completions. generalize 0%nat. induction n as [|n IH]; intros k; simpl; auto.
      f_equal. apply IH. }
    assert (Sc : schedule n e1).
    { split; rewrite C1; [apply seq_NoDup|]. intros i Hi. apply in_seq in Hi. lia. }
    destruct (imap_run f e1 imap_init []) as [s got] eqn:R.
    assert (K := imap_complete f n e1 s got Sc (fun i Hi => eq_ind_r (fun l => In i l) (proj2 (in_seq n 0 i) (conj (Nat.le_0_l i) Hi)) C1) R).
    assert (Rn : forall m s got, List.length (im_items s) = m -> exists s', imap_run f (repeat Next m) s got = (s', got ++ im_items s)).
    { clear. induction m as [|m IH]; intros s got L; simpl.
      - destruct (im_items s); [|discriminate]. rewrite app_nil_r. eauto.
      - destruct (im_items s) as [|x xs] eqn:E; [discriminate|].
        destruct (IH (mkImap (im_index s) xs (im_unsorted s)) (got ++ [x])) as [s' Hs].
        + simpl in *. lia.
        + exists s'. rewrite Hs. simpl. rewrite <- app_assoc. auto. }
    destruct (Rn _ s got eq_refl) as [s' Rs].
    assert (Ra : forall e1 e2 s got, imap_run f (e1 ++ e2) s got =
                 let (s1, g1) := imap_run f e1 s got in imap_run f e2 s1 g1).
    { clear. induction e1 as [|[i|] e1 IH]; intros e2 s got; simpl; auto.
      destruct (im_items s); auto. }
    exists (e1 ++ repeat Next (List.length (im_items s))), s'. split.
    - assert (Cr : forall m, completions (repeat Next m) = []) by (induction m; auto).
      destruct Sc as [S1 S2]. split; unfold completions in *; rewrite flat_map_app, Cr, app_nil_r; auto.
    - rewrite Ra, R, Rs, K. auto.
  Qed.

  Lemma loop_pool : forall fuel d args r, loop fuel d args = Some r -> pool d args r.
  Proof.
    induction fuel as [|k IH]; intros d args r H.
    - destruct args; [|discriminate]. inversion H; constructor.
    - destruct args as [|a args]; [inversion H; constructor|]. cbn [detect_loop] in H.
      destruct (in_order (fun i => inc d (nth i (a :: args) [])) (List.length (a :: args))) as (evs & s & S & R).
      rewrite (map_nth_seq (inc d)) in R.
      destruct (round d (a :: args)) as [[acc further]|e] eqn:E; rewrite round_collect in E.
      + destruct (loop k (Datatypes.S d) further) as [r'|] eqn:K; [|discriminate].
        assert (r = mapr (app acc) r') as -> by (destruct r'; inversion H; auto).
        eapply DPRound; eauto; [discriminate|]. rewrite map_length; auto.
      + inversion H; subst. eapply DPFail; eauto. discriminate.
  Qed.
End Loops.

Section Results.
  Variable fs : fsys.
  Variable cwd : string.
  Variable search : string -> string -> bool.
  Variable c : config.
  Variable hidden : bool.
  Variable ignore : list string.
  Variable scan : bool.
  Notation detect := (detect_paths fs cwd search c hidden ignore scan).
  Notation finds := (should_find fs cwd search c hidden ignore scan).

  Lemma given_level : forall paths p,
    In p (List.concat [paths]) <-> looked_at fs cwd search c hidden ignore scan paths 0 p.
  Proof.
    intros paths p. simpl. rewrite app_nil_r. split; [apply LGiven|]. intros H. inversion H; auto.
  Qed.

  Lemma nlo_dec : forall p, {not_left_out search c ignore p} + {~ not_left_out search c ignore p}.
  Proof.
    intros p. destruct (existsb (fun ic => contains ic p) ignore || is_excluded_by_regex search c p) eqn:E.
    - right. intros H. apply left_out_iff in H. congruence.
    - left. apply left_out_iff; auto.
  Qed.

  Lemma good_dec : forall paths, {good search c hidden ignore paths} +
    {hidden = false /\ In "" paths /\ not_left_out search c ignore ""}.
  Proof.
    intros paths. unfold good. destruct hidden; [left; auto|].
    destruct (in_dec string_dec "" paths) as [H|H]; [|left; auto].
    destruct (nlo_dec ""); [right; auto|left; auto].
  Qed.

  Lemma bad_round : forall d args, hidden = false -> In "" (List.concat args) -> not_left_out search c ignore "" ->
    detect_round fs cwd search c hidden ignore scan d args = Err IndexError.
  Proof.
    intros d args Hh Hi Hn.
    destruct (detect_round fs cwd search c hidden ignore scan d args) as [[acc further]|e] eqn:R.
    - destruct (round_spec _ _ _ _ _ _ _ _ _ _ _ R) as (_ & _ & R3).
      exfalso. apply (R3 "" IndexError Hi). apply one_err. auto.
    - apply round_err in R as (p & _ & O). apply one_err in O as (-> & _). auto.
  Qed.

  Lemma detect_ok : forall fuel paths l, detect fuel paths = Some (Ok l) -> forall q, In q l <-> finds paths q.
  Proof.
    intros fuel paths l H q. destruct (good_dec paths) as [G|(A & B & C)].
    - destruct (loop_spec _ _ _ _ _ _ _ paths G fuel 0 [paths] _ (given_level paths) H) as (l' & E & I).
      inversion E; subst l'. rewrite I. unfold found_from, should_find.
      split; [intros (d & p & _ & X)|intros (d & p & X)]; exists d, p; [auto|split; [lia|auto]].
    - unfold detect_paths in H. destruct fuel; [discriminate|]. cbn [detect_loop] in H.
      rewrite bad_round in H; auto; [discriminate|]. simpl. rewrite app_nil_r; auto.
  Qed.

  Lemma detect_err : forall fuel paths e, detect fuel paths = Some (Err e) <->
    (0 < fuel)%nat /\ e = IndexError /\ hidden = false /\ In "" paths /\ not_left_out search c ignore "".
  Proof.
    intros fuel paths e. split.
    - intros H. destruct (good_dec paths) as [G|(A & B & C)].
      + destruct (loop_spec _ _ _ _ _ _ _ paths G fuel 0 [paths] _ (given_level paths) H) as (l' & E & I). discriminate.
      + unfold detect_paths in H. destruct fuel; [discriminate|]. cbn [detect_loop] in H.
        rewrite bad_round in H; auto; [|simpl; rewrite app_nil_r; auto]. inversion H. split; [lia|auto].
    - intros (F & -> & A & B & C). destruct fuel; [lia|]. unfold detect_paths. cbn [detect_loop].
      rewrite bad_round; auto. simpl. rewrite app_nil_r; auto.
  Qed.

  Lemma detect_total : forall n paths, (forall p, ~ looked_at fs cwd search c hidden ignore scan paths n p) ->
    forall fuel, (n < fuel)%nat -> exists r, detect fuel paths = Some r.
  Proof.
    intros n paths H fuel F. destruct (good_dec paths) as [G|(A & B & C)].
    - eapply loop_total; eauto; [apply given_level|]. rewrite Nat.add_0_r. auto.
    - exists (Err IndexError). apply detect_err. split; [lia|auto].
  Qed.
End Results.

(** Listing order, order and repetition of the given paths. *)
Lemma looked_same : forall a b cwd search c hidden ignore scan p1 p2, same_listings a b ->
  (forall p, In p p1 <-> In p p2) -> forall d p,
  looked_at a cwd search c hidden ignore scan p1 d p -> looked_at b cwd search c hidden ignore scan p2 d p.
Proof.
  intros a b cwd search c hidden ignore scan p1 p2 (L1 & L2 & L3 & L4) P d p H.
  induction H as [p Hp|d p names n L IH N S F E I Hd].
  - apply LGiven, P; auto.
  - specialize (L4 (actual cwd c p)). rewrite E in L4.
    destruct (fs_listdir b (actual cwd c p)) as [m|] eqn:Em; [|destruct L4].
    eapply LEntry; eauto.
    + unfold is_folder in *. rewrite <- L1, <- L2. auto.
    + apply L4; auto.
Qed.

Lemma same_listings_sym : forall a b, same_listings a b -> same_listings b a.
Proof.
  intros a b (L1 & L2 & L3 & L4). split; [|split; [|split]]; intros p; auto.
  specialize (L4 p). destruct (fs_listdir a p), (fs_listdir b p); auto. intros n. symmetry; auto.
Qed.

Lemma finds_same : forall a b cwd search c hidden ignore scan p1 p2, same_listings a b ->
  (forall p, In p p1 <-> In p p2) -> forall q,
  should_find a cwd search c hidden ignore scan p1 q -> should_find b cwd search c hidden ignore scan p2 q.
Proof.
  intros a b cwd search c hidden ignore scan p1 p2 L P q (d & p & H & N & S & E & F & D).
  exists d, p. split; [eapply looked_same; eauto|]. split; auto. split; auto. split; auto.
  destruct L as (L1 & L2 & L3 & L4). split.
  - unfold is_file in *. rewrite <- L1, <- L2. auto.
  - destruct D as [D|D]; auto. right. unfold probably_python_file in *. rewrite <- L3. auto.
Qed.

Lemma sorted_files : forall l, StronglySorted str_lt (isort str_leb (dedup l)).
Proof.
  intros l.
  assert (N : NoDup (isort str_leb (dedup l))).
  { apply isort_NoDup, dedup_NoDup. }
  assert (S := isort_sorted str_leb str_leb_total str_leb_trans (dedup l)).
  revert N S. generalize (isort str_leb (dedup l)). clear l.
  induction l as [|x l IH]; intros N S; constructor.
  - inversion N; inversion S; subst; auto.
  - inversion N as [|x' l' Nx N']; inversion S as [|x2 l2 S' F]; subst.
    rewrite Forall_forall in *. intros y Hy. specialize (F y Hy).
    unfold str_lt. unfold str_leb in F. destruct (str_compare x y) eqn:E; auto; [|discriminate].
    apply str_compare_eq in E. subst. contradiction.
Qed.

(** ** Extensions *)
Lemma no_char_spec : forall ch s, sall (fun c => negb (Ascii.eqb ch c)) s = true <-> no_char ch s.
Proof. intros. apply no_char_iff. Qed.

Lemma split_nonempty : forall f s, split_on f s <> [].
Proof.
  intros f. induction s as [|x s IH]; simpl; [discriminate|].
  destruct (f x); [discriminate|]. destruct (split_on f s); discriminate.
Qed.

Lemma last_split_sep : forall f a x t, f x = true -> last (split_on f (a +++ String x t)) "" = last (split_on f t) "".
Proof.
  intros f a x t Hx. induction a as [|y a IH]; simpl.
  - rewrite Hx. destruct (split_on f t); auto.
  - assert (Ne := split_nonempty f (a +++ String x t)).
    destruct (f y).
    + rewrite <- IH. destruct (split_on f (a +++ String x t)); auto.
    + assert (L : (2 <= List.length (split_on f (a +++ String x t)))%nat).
      { clear IH Ne. induction a as [|z a IH]; simpl.
        - rewrite Hx. simpl. destruct (split_on f t) eqn:E; simpl; [exfalso; eapply split_nonempty; eauto|lia].
        - destruct (f z); simpl; [lia|]. destruct (split_on f (a +++ String x t)); simpl in *; lia. }
      rewrite <- IH. destruct (split_on f (a +++ String x t)) as [|h [|h' r]]; simpl in *; auto; lia.
Qed.

Lemma split_none : forall f s, sall (fun c => negb (f c)) s = true -> split_on f s = [s].
Proof.
  intros f s H. rewrite sall_iff in H. induction s as [|x s IH]; simpl; auto.
  assert (Hx := H "" x s eq_refl). apply negb_true_iff in Hx. rewrite Hx, IH; auto.
  intros a y b ->. apply (H (String x a) y b); auto.
Qed.

Lemma last_split : forall f s, sall (fun c => negb (f c)) (last (split_on f s) "") = true /\
  ((split_on f s = [s]) \/
   exists a x, f x = true /\ s = a +++ String x (last (split_on f s) "") /\ (2 <= List.length (split_on f s))%nat).
Proof.
  intros f. induction s as [|y s IH].
  - simpl. auto.
  - destruct IH as [IH1 IH2]. simpl. destruct (f y) eqn:Ey.
    + assert (E : last ("" :: split_on f s) "" = last (split_on f s) "").
      { destruct (split_on f s) eqn:E; auto. }
      rewrite E. split; auto. right.
      destruct IH2 as [IH2|(a & x & Hx & E2 & L)].
      * exists "", y. rewrite IH2. simpl. auto.
      * exists (String y a), x. split; auto. split; [|simpl; lia].
        change (String y a +++ String x (last (split_on f s) "")) with (String y (a +++ String x (last (split_on f s) ""))).
        rewrite <- E2. auto.
    + destruct IH2 as [IH2|(a & x & Hx & E2 & L)].
      * rewrite IH2 in *. simpl in *. split; auto.
        rewrite sall_iff in *. intros a x b E. destruct a as [|z a]; inversion E; subst.
        { rewrite Ey; auto. }
        { eapply IH1; eauto. }
      * destruct (split_on f s) as [|h [|h' r]]; simpl in L; try lia.
        split; [exact IH1|]. right. exists (String y a), x. split; auto. split; [|simpl; lia].
        exact (f_equal (String y) E2).
Qed.

Lemma basename_spec : forall p b, basename p = b <->
  exists d, p = d +++ b /\ (d = "" \/ exists d', d = d' +++ "/") /\ no_char "/" b.
Proof.
  intros p b. unfold basename, split_char. split.
  - intros <-. destruct (last_split (Ascii.eqb slash) p) as [N [E|(a & x & Hx & E & _)]].
    + exists "". rewrite E in *. cbn [last] in *. split; [auto|]. split; [auto|]. apply no_char_spec. exact N.
    + apply Ascii.eqb_eq in Hx. subst x. exists (a +++ "/"). split.
      * rewrite app_assoc_s. exact E.
      * split; [right; eauto|]. apply no_char_spec. exact N.
  - intros (d & -> & D & N). apply no_char_spec in N.
    destruct D as [->|[d' ->]].
    + change ("" +++ b) with b. rewrite split_none; auto.
    + rewrite app_assoc_s. change ("/" +++ b) with (String slash b).
      rewrite last_split_sep; auto. rewrite split_none; auto.
Qed.

Lemma lstrip_dots_spec : forall s, exists ds, s = ds +++ lstrip_dots s /\
  (forall a x b, ds = a +++ String x b -> x = "."%char) /\ ~ begins "." (lstrip_dots s).
Proof.
  induction s as [|x s (ds & E & D & N)]; cbn [lstrip_dots].
  - exists "". split; auto. split; [intros [] ? ? H; discriminate|]. intros [b H]; discriminate.
  - destruct (Ascii.eqb x ".") eqn:X.
    + apply Ascii.eqb_eq in X. subst x. exists (String "." ds). split; [simpl; rewrite <- E; auto|]. split; auto.
      intros [|y a] z b H; inversion H; subst; eauto.
    + exists "". split; auto. split; [intros [] ? ? H; discriminate|].
      intros [b H]. inversion H; subst. discriminate.
Qed.

Lemma lstrip_dots_app : forall s t, (exists a x b, s = a +++ String x b /\ x <> "."%char) ->
  lstrip_dots (s +++ t) = lstrip_dots s +++ t /\ lstrip_dots s <> "".
Proof.
  induction s as [|y s IH]; intros t (a & x & b & E & N).
  - destruct a; discriminate.
  - cbn [lstrip_dots str_app String.append]. destruct (Ascii.eqb y ".") eqn:Y.
    + apply IH. destruct a as [|z a]; inversion E; subst; [apply Ascii.eqb_eq in Y; congruence|eauto].
    + split; auto. discriminate.
Qed.

Lemma ext_iff : forall p e, e <> "" -> (ext_of p = e <-> has_ext p e).
Proof.
  intros p e He. unfold ext_of, has_ext.
  assert (Bs := proj1 (basename_spec p _) eq_refl). destruct Bs as (d & Ep & D & Nb).
  set (t := lstrip_dots (basename p)).
  assert (Rl : forall l : list string, (exists x r, rev l = e :: x :: r) <-> (2 <= List.length l)%nat /\ last l "" = e).
  { intros l. split.
    - intros (x & r & E). assert (l = rev r ++ [x] ++ [e]).
      { rewrite <- (rev_involutive l), E. simpl. rewrite <- app_assoc. auto. }
      subst l. rewrite !app_length, app_assoc, last_last. simpl. split; [lia|auto].
    - intros [L E]. destruct (rev l) as [|y [|z r]] eqn:R.
      + apply (f_equal (@List.length _)) in R. rewrite rev_length in R. simpl in R. lia.
      + apply (f_equal (@List.length _)) in R. rewrite rev_length in R. simpl in R. lia.
      + assert (l = rev r ++ [z] ++ [y]).
        { rewrite <- (rev_involutive l), R. simpl. rewrite <- app_assoc. auto. }
        subst l. rewrite app_assoc, last_last in E. subst y. eauto. }
  assert (X : match rev (split_char "." t) with e0 :: _ :: _ => e0 | _ => "" end = e <->
              (2 <= List.length (split_char "." t))%nat /\ last (split_char "." t) "" = e).
  { rewrite <- Rl. destruct (rev (split_char "." t)) as [|y [|z r]].
    - split; [congruence|intros (? & ? & H); discriminate].
    - split; [congruence|intros (? & ? & H); discriminate].
    - split; [intros ->; eauto|intros (? & ? & H); congruence]. }
  rewrite X. clear X Rl.
  destruct (lstrip_dots_spec (basename p)) as (ds & Eb & Dd & Nd). fold t in Eb, Nd.
  split.
  - intros [L E]. destruct (last_split (Ascii.eqb ".") t) as [N [E1|(a & x & Hx & E1 & _)]].
    + unfold split_char in L. rewrite E1 in L. simpl in L. lia.
    + unfold split_char in E. rewrite E in *. apply Ascii.eqb_eq in Hx. subst x.
      exists d, (ds +++ a). split.
      { rewrite Ep, Eb, E1. rewrite !app_assoc_s. auto. }
      split; auto.
      assert (Fb : basename p = ds +++ a +++ String "." e) by (rewrite Eb, E1; auto).
      split; [|split; [|split]].
      * intros u v K. apply (Nb u (v +++ String "." e)). rewrite Fb.
        rewrite <- app_assoc_s, K, app_assoc_s. auto.
      * intros u v K. apply (Nb (ds +++ a +++ String "." u) v). rewrite Fb, K. rewrite !app_assoc_s. auto.
      * apply no_char_spec. exact N.
      * destruct a as [|x a].
        { exfalso. apply Nd. rewrite E1. exists e. auto. }
        exists ds, x, a. split; auto. intros ->. apply Nd. rewrite E1. exists (a +++ String "." e). auto.
  - intros (d1 & s & E & D1 & Ns & Ne & Nde & Hx).
    assert (Fb : basename p = s +++ "." +++ e).
    { apply basename_spec. exists d1. split; auto. split; auto.
      intros u v K. assert (C : forall a b u v, a +++ b = u +++ String "/" v ->
        (exists v', a = u +++ String "/" v') \/ (exists u', b = u' +++ String "/" v)).
      { clear. induction a as [|y a IH]; intros b u v K; [right; eauto|].
        destruct u as [|z u]; inversion K as [[K1 K2]]; subst; [left; exists a; auto|].
        destruct (IH _ _ _ K2) as [[v' ->]|[u' ->]]; [left; exists v'; auto|right; eauto]. }
      destruct (C _ _ _ _ K) as [[v' K']|[u' K']].
      - exact (Ns _ _ K').
      - destruct u' as [|z u']; inversion K' as [[K1 K2]]; subst. exact (Ne _ _ eq_refl). }
    destruct (lstrip_dots_app s ("." +++ e) Hx) as [E2 E3].
    assert (Et : t = lstrip_dots s +++ String "." e) by (unfold t; rewrite Fb; exact E2).
    rewrite Et. unfold split_char. split.
    + destruct (last_split (Ascii.eqb ".") (lstrip_dots s +++ String "." e)) as [N [E1|(a & x & _ & _ & L)]]; auto.
      exfalso. rewrite E1 in N. cbn [last] in N. revert N.
      change (sall (fun c => negb (Ascii.eqb "." c)) (lstrip_dots s +++ String "." e) <> true).
      rewrite no_char_iff. intros N. exact (N (lstrip_dots s) e eq_refl).
    + rewrite last_split_sep; auto. rewrite split_none; auto. apply no_char_spec. exact Nde.
Qed.

(** ** Magic lines *)
Lemma lstrip_spec : forall s, exists ws, s = ws +++ lstrip s /\
  (forall a x b, ws = a +++ String x b -> is_space x = true) /\
  (forall x r, lstrip s = String x r -> is_space x = false).
Proof.
  induction s as [|y s (ws & E & W & N)]; cbn [lstrip].
  - exists "". split; auto. split; [intros [] ? ? H; discriminate|]. intros x r H; discriminate.
  - destruct (is_space y) eqn:Y.
    + exists (String y ws). split; [simpl; rewrite <- E; auto|]. split; auto.
      intros [|z a] x b H; inversion H; subst; eauto.
    + exists "". split; auto. split; [intros [] ? ? H; discriminate|]. intros x r H; inversion H; subst; auto.
Qed.

Lemma lstrip_app : forall ws x r, (forall a x b, ws = a +++ String x b -> is_space x = true) ->
  is_space x = false -> lstrip (ws +++ String x r) = String x r.
Proof.
  induction ws as [|y ws IH]; intros x r W N; simpl.
  - rewrite N; auto.
  - rewrite (W "" y ws eq_refl). apply IH; auto. intros a z b ->. apply (W (String y a) z b); auto.
Qed.

Lemma rstrip_spec : forall s, exists ws, s = rstrip s +++ ws /\ (forall a x b, ws = a +++ String x b -> is_space x = true).
Proof.
  induction s as [|y s (ws & E & W)]; cbn [rstrip].
  - exists "". split; auto. intros [] ? ? H; discriminate.
  - destruct (rstrip s) as [|z r] eqn:R.
    + simpl in E. subst ws. destruct (is_space y) eqn:Y.
      * exists (String y s). split; auto. intros [|z a] x b H; inversion H; subst; eauto.
      * exists s. split; auto.
    + exists ws. split; auto. simpl. simpl in E. rewrite <- E. auto.
Qed.

(** Cutting blanks off the end does not remove an occurrence of a text without blanks. *)
Lemma rstrip_occurs : forall t a b, (forall u x v, t = u +++ String x v -> is_space x = false) -> t <> "" ->
  exists b', rstrip (a +++ t +++ b) = a +++ t +++ b'.
Proof.
  intros t a b T Ne.
  assert (Tn : rstrip (t +++ b) <> "" /\ exists b', rstrip (t +++ b) = t +++ b').
  { revert Ne T. induction t as [|x t IH]; intros Ne T; [congruence|].
    assert (X : is_space x = false) by (eapply (T ""); reflexivity).
    cbn [str_app String.append rstrip]. destruct t as [|y t].
    - change ("" +++ b)%string with b. change (String.append "" b) with b.
      destruct (rstrip b) as [|z r]; [rewrite X|]; (split; [discriminate|eexists; reflexivity]).
    - destruct IH as [N [b' E]]; [discriminate| |].
      + intros u z v H. apply (T (String x u) z v). rewrite H. auto.
      + change (String.append (String y t) b) with (String y t +++ b).
        destruct (rstrip (String y t +++ b)) as [|z r]; [congruence|]. split; [discriminate|].
        exists b'. rewrite E. auto. }
  destruct Tn as [Nn [b' E]]. exists b'.
  induction a as [|x a IH]; [exact E|].
  change (String x a +++ t +++ b) with (String x (a +++ t +++ b)).
  cbn [rstrip]. rewrite IH. destruct (a +++ t +++ b') eqn:C.
  - apply append_eq_nil in C as [-> C]. rewrite <- E in C. congruence.
  - exact (f_equal (String x) (eq_sym C)).
Qed.

Lemma prefix_split : forall t a b u v : string, t +++ a = u +++ v -> (String.length t <= String.length u)%nat ->
  exists w, u = t +++ w /\ a = w +++ v.
Proof.
  induction t as [|x t IH]; intros a b u v E L.
  - exists u. auto.
  - destruct u as [|y u]; simpl in *; [lia|]. inversion E; subst.
    destruct (IH a b u v H1 ltac:(lia)) as (w & -> & ->). exists w; auto.
Qed.

Lemma magic_line_iff : forall l, magic_line l = true <-> magic l.
Proof.
  intros l. unfold magic_line, magic. rewrite andb_true_iff, startswith_iff, contains_iff.
  generalize (lower l) as s. clear l. intros s. split.
  - intros [[r E] (a & b & E2)]. unfold strip in *.
    destruct (lstrip_spec s) as (ws & W1 & W2 & W3).
    destruct (rstrip_spec (lstrip s)) as (ws' & W4 & W5).
    rewrite E in E2. destruct a as [|x [|y a]].
    + exfalso. inversion E2.
    + exfalso. inversion E2.
    + assert (Er : r = a +++ "python" +++ b) by (inversion E2; reflexivity).
      exists ws, a, (b +++ ws'). split; [intros z u t; apply W2|].
      rewrite W1, W4, E, Er. rewrite !app_assoc_s. reflexivity.
  - intros (ws & a & b & W & ->).
    assert (L : lstrip (ws +++ "#!" +++ a +++ "python" +++ b) = "#!" +++ a +++ "python" +++ b).
    { apply lstrip_app; auto. intros r x t H. eapply W; eauto. }
    unfold strip. rewrite L.
    destruct (rstrip_occurs "python" ("#!" +++ a) b) as [b' E].
    + intros u x v H. do 6 (destruct u as [|? u]; [inversion H; subst; reflexivity|]; inversion H; clear H; subst;
        match goal with K : _ = u +++ String x v |- _ => rename K into H end).
      destruct u; discriminate.
    + discriminate.
    + rewrite !app_assoc_s in E. rewrite E. split; [eexists; reflexivity|].
      exists ("#!" +++ a), b'. rewrite !app_assoc_s. reflexivity.
Qed.

Lemma magic_lines_iff : forall n ls, magic_lines n ls = true <->
  exists i l, (i < n)%nat /\ nth_error ls i = Some (Some l) /\ magic l /\
    forall j, (j < i)%nat -> exists k, nth_error ls j = Some (Some k).
Proof.
  induction n as [|n IH]; intros ls.
  - simpl. split; [discriminate|]. intros (i & l & H & _). lia.
  - destruct ls as [|[x|] ls]; cbn [magic_lines].
    + split; [discriminate|]. intros (i & l & _ & H & _). destruct i; discriminate.
    + rewrite orb_true_iff, magic_line_iff, IH. split.
      * intros [H|(i & l & Hi & Hl & Hm & Hj)].
        { exists O, x. split; [lia|]. split; auto. split; auto. intros j Hj; lia. }
        { exists (S i), l. split; [lia|]. split; auto. split; auto. intros [|j] H; simpl; [eauto|]. apply Hj; lia. }
      * intros (i & l & Hi & Hl & Hm & Hj). destruct i as [|i].
        { left. inversion Hl; subst; auto. }
        { right. exists i, l. split; [lia|]. split; auto. split; auto. intros j H. apply (Hj (S j)). lia. }
    + split; [discriminate|]. intros (i & l & _ & Hl & _ & Hj). destruct i as [|i]; [discriminate|].
      destruct (Hj O ltac:(lia)) as [k K]. discriminate.
Qed.

Lemma python_file_yes : forall fs p e, In e py_exts -> has_ext (lower p) e -> probably_python_file fs p = true.
Proof.
  intros fs p e H X. unfold probably_python_file.
  assert (e <> "") by (intros ->; simpl in H; intuition discriminate).
  apply ext_iff in X; auto. rewrite X. apply mem_In in H. rewrite H. auto.
Qed.

Lemma python_file_no : forall fs p e, In e not_src_exts \/ In e not_py_code_exts -> ~ In e py_exts ->
  has_ext (lower p) e -> e <> "" -> probably_python_file fs p = false.
Proof.
  intros fs p e H N X Ne. unfold probably_python_file.
  apply ext_iff in X; auto. rewrite X. apply mem_false in N. rewrite N.
  destruct H as [H|H]; apply mem_In in H; rewrite H; [auto|rewrite orb_true_r; auto].
Qed.

Lemma python_file_magic : forall fs p,
  (forall e, has_ext (lower p) e -> e <> "" -> ~ In e py_exts /\ ~ In e not_src_exts /\ ~ In e not_py_code_exts) ->
  (probably_python_file fs p = true <-> exists ls, fs_lines fs p = Some ls /\ magic_file ls).
Proof.
  intros fs p H. unfold probably_python_file, magic_file.
  assert (A : ~ In (ext_of (lower p)) py_exts /\ ~ In (ext_of (lower p)) not_src_exts /\ ~ In (ext_of (lower p)) not_py_code_exts).
  { destruct (string_dec (ext_of (lower p)) "") as [E|E].
    - rewrite E. rewrite <- !mem_false. vm_compute. auto.
    - apply H; auto. apply ext_iff; auto. }
  destruct A as (A1 & A2 & A3). apply mem_false in A1, A2, A3. rewrite A1, A2, A3. simpl orb. cbv iota.
  destruct (fs_lines fs p) as [ls|].
  - rewrite magic_lines_iff. split; [eauto|]. intros (ls' & E & X). inversion E; subst; auto.
  - split; [discriminate|]. intros (ls' & E & _). discriminate.
Qed.

(** ** Absolute paths *)
Lemma normpath_abs : forall p, isabs p = true -> exists r, normpath p = String "/" r.
Proof.
  intros p H. unfold normpath. destruct (String.eqb p "") eqn:E.
  { apply String.eqb_eq in E. subst. discriminate. }
  assert (S : startswith "/" p = true) by exact H. rewrite S.
  destruct (startswith "//" p && negb (startswith "///" p)); cbn; eauto.
Qed.

Lemma abspath_abs : forall cwd p, isabs cwd = true -> exists r, abspath cwd p = String "/" r.
Proof.
  intros cwd p H. unfold abspath. apply normpath_abs. destruct (isabs p) eqn:E; auto.
  unfold path_join. rewrite E. unfold isabs in *. apply startswith_iff in H as [b ->].
  destruct (_ || _); simpl; auto.
Qed.

(** ** Absolute paths stay as they are *)
Definition plain_comp (s : string) : Prop := s <> "" /\ s <> "." /\ s <> ".." /\ no_char "/" s.

Lemma norm_comps_plain : forall comps acc, Forall plain_comp acc -> Forall (no_char "/") comps ->
  Forall plain_comp (norm_comps true acc comps).
Proof.
  induction comps as [|x comps IH]; intros acc A C; cbn [norm_comps].
  - apply Forall_rev; auto.
  - inversion C as [|x' l' Cx C']; subst.
    destruct (String.eqb x "") eqn:E1; [apply IH; auto|].
    destruct (String.eqb x ".") eqn:E2; [apply IH; auto|].
    apply String.eqb_neq in E1, E2. cbn [orb].
    destruct (String.eqb x "..") eqn:E3; cbn [negb orb andb].
    + destruct acc as [|y acc]; [apply IH; auto|].
      inversion A as [|y' l' Ay A']; subst. destruct (String.eqb y "..") eqn:E4.
      * apply String.eqb_eq in E4. destruct Ay as (_ & _ & Ay & _). congruence.
      * apply IH; auto.
    + apply String.eqb_neq in E3. apply IH; auto. constructor; auto. repeat split; auto.
Qed.

Lemma norm_comps_id : forall comps acc, Forall plain_comp comps -> norm_comps true acc comps = rev acc ++ comps.
Proof.
  induction comps as [|x comps IH]; intros acc C; cbn [norm_comps].
  - rewrite app_nil_r; auto.
  - inversion C as [|x' l' (X1 & X2 & X3 & X4) C']; subst.
    apply String.eqb_neq in X1, X2, X3. rewrite X1, X2, X3. cbn [orb negb].
    rewrite IH by auto. simpl. rewrite <- app_assoc. auto.
Qed.

Lemma split_comps : forall ch s, Forall (no_char ch) (split_char ch s).
Proof.
  intros ch. unfold split_char. induction s as [|x s IH]; cbn [split_on].
  - constructor; auto. intros [] b H; discriminate.
  - destruct (Ascii.eqb ch x) eqn:E.
    + constructor; auto. intros [] b H; discriminate.
    + destruct (split_on (Ascii.eqb ch) s) as [|h t].
      * constructor; auto. intros [|y a] b H; inversion H; subst; [rewrite Ascii.eqb_refl in E; discriminate|destruct a; discriminate].
      * inversion IH as [|h' t' Hh Ht]; subst. constructor; auto.
        intros [|y a] b H; inversion H; subst; [rewrite Ascii.eqb_refl in E; discriminate|]. exact (Hh a b eq_refl).
Qed.

Lemma split_join : forall cs, Forall plain_comp cs -> cs <> [] -> split_char slash (join "/" cs) = cs.
Proof.
  induction cs as [|x cs IH]; intros F N; [congruence|].
  inversion F as [|x' l' (X1 & X2 & X3 & X4) F']; subst. apply no_char_spec in X4.
  destruct cs as [|y cs].
  - simpl. unfold split_char. apply split_none. exact X4.
  - cbn [join]. assert (A : forall a t, sall (fun c => negb (Ascii.eqb slash c)) a = true ->
      split_char slash (a +++ "/" +++ t) = a :: split_char slash t).
    { clear. intros a t H. unfold split_char. rewrite sall_iff in H. induction a as [|z a IH].
      - reflexivity.
      - change (String z a +++ "/" +++ t) with (String z (a +++ "/" +++ t)). cbn [split_on].
        assert (Hz := H "" z a eq_refl). apply negb_true_iff in Hz. rewrite Hz.
        rewrite IH; auto. intros u v w ->. apply (H (String z u) v w). auto. }
    rewrite A; auto. f_equal. apply IH; auto. discriminate.
Qed.

Lemma normpath_fixed : forall p, isabs p = true -> normpath (normpath p) = normpath p.
Proof.
  intros p H. unfold isabs in H.
  set (cs := norm_comps true [] (split_char slash p)).
  assert (F : Forall plain_comp cs) by (apply norm_comps_plain; [constructor|apply split_comps]).
  set (sl := if startswith "//" p && negb (startswith "///" p) then "//" else "/").
  assert (E : normpath p = sl +++ join "/" cs).
  { unfold normpath. destruct (String.eqb p "") eqn:Ep.
    { apply String.eqb_eq in Ep. subst. discriminate. }
    unfold isabs. rewrite H. fold cs. unfold sl.
    destruct (startswith "//" p && negb (startswith "///" p)); reflexivity. }
  clearbody cs. assert (J : forall r, join "/" cs = String "/" r -> False).
  { intros r K. destruct cs as [|x cs']; [discriminate|]. inversion F as [|x' l' (X1 & _ & _ & X4) F']; subst.
    destruct x as [|z x]; [congruence|].
    assert (z = "/"%char) as -> by (destruct cs'; cbn in K; inversion K; auto).
    apply (X4 "" x); auto. }
  assert (Sp : norm_comps true [] (split_char slash (join "/" cs)) = cs).
  { destruct cs as [|x cs']; [reflexivity|]. rewrite split_join; auto; [|discriminate].
    rewrite norm_comps_id; auto. }
  rewrite E. unfold normpath.
  assert (Hs : sl = "/" \/ sl = "//") by (unfold sl; destruct (_ && _); auto).
  destruct Hs as [->| ->].
  - assert (A : startswith "//" ("/" +++ join "/" cs) = false).
    { destruct (startswith "//" _) eqn:X; auto. apply startswith_iff in X as [b X].
      exfalso. apply (J b). inversion X; auto. }
    rewrite A. change (String.eqb ("/" +++ join "/" cs) "") with false. cbv iota.
    change (startswith "/" ("/" +++ join "/" cs)) with true. unfold isabs.
    change (startswith "/" ("/" +++ join "/" cs)) with true. cbn [andb]. cbv iota.
    assert (S1 : split_char slash ("/" +++ join "/" cs) = "" :: split_char slash (join "/" cs)) by reflexivity.
    rewrite S1. cbn [norm_comps String.eqb orb]. rewrite Sp. reflexivity.
  - assert (A : startswith "///" ("//" +++ join "/" cs) = false).
    { destruct (startswith "///" _) eqn:X; auto. apply startswith_iff in X as [b X].
      exfalso. apply (J b). inversion X; auto. }
    rewrite A. change (String.eqb ("//" +++ join "/" cs) "") with false. cbv iota.
    change (startswith "//" ("//" +++ join "/" cs)) with true. unfold isabs.
    change (startswith "/" ("//" +++ join "/" cs)) with true. cbn [andb negb]. cbv iota.
    assert (S1 : split_char slash ("//" +++ join "/" cs) = "" :: "" :: split_char slash (join "/" cs)) by reflexivity.
    rewrite S1. cbn [norm_comps String.eqb orb]. rewrite Sp. reflexivity.
Qed.

Lemma abspath_fixed : forall cwd p, isabs cwd = true -> abspath cwd (abspath cwd p) = abspath cwd p.
Proof.
  intros cwd p H. destruct (abspath_abs cwd p H) as [r E].
  unfold abspath at 1. assert (A : isabs (abspath cwd p) = true) by (rewrite E; reflexivity).
  rewrite A. unfold abspath. apply normpath_fixed.
  destruct (isabs p) eqn:Ep; auto. unfold path_join. rewrite Ep.
  apply startswith_iff in H as [b ->]. unfold isabs. destruct (_ || _); simpl; auto.
Qed.
