(** The ways to give files to a run. Lemmas for C83. *)
From Verif Require Import PyBase PyLemmas Utility RulesData Rules Config Formats Paths Pool Detection AstKinds Ast State Visitor MinVersions Parser
  Arguments Processor Main Spec_Base Spec_Detection Spec_Given Proof_Strings Proof_Parser Proof_Detection.
From Coq Require Import Lia.

(** *** Joined paths *)
Lemma built_fixed sl cs : sl = "/" \/ sl = "//" -> Forall plain_comp cs -> normpath (sl +++ join "/" cs) = sl +++ join "/" cs.
Proof.
  intros Hs F.
  assert (J : forall r, join "/" cs = String "/" r -> False).
  { intros r K. destruct cs as [|x cs']; [discriminate|]. inversion F as [|x' l' (X1 & _ & _ & X4) F']; subst.
    destruct x as [|z x]; [congruence|].
    assert (z = "/"%char) as -> by (destruct cs'; cbn in K; inversion K; auto).
    apply (X4 "" x); auto. }
  assert (Sp : norm_comps true [] (split_char slash (join "/" cs)) = cs).
  { destruct cs as [|x cs']; [reflexivity|]. rewrite split_join; auto; [|discriminate].
    rewrite norm_comps_id; auto. }
  unfold normpath. destruct Hs as [->| ->].
  - assert (A : startswith "//" ("/" +++ join "/" cs) = false).
    { destruct (startswith "//" _) eqn:X; auto. apply startswith_iff in X as [b X].
      exfalso. apply (J b). inversion X; auto. }
    rewrite A. change (String.eqb ("/" +++ join "/" cs) "") with false. cbv iota.
    change (startswith "/" ("/" +++ join "/" cs)) with true. unfold isabs.
    change (startswith "/" ("/" +++ join "/" cs)) with true. cbn [andb]. cbv iota.
    assert (S1 : split_char slash ("/" +++ join "/" cs) = "" :: split_char slash (join "/" cs)) by reflexivity.
    rewrite S1. cbn [norm_comps String.eqb orb]. rewrite Sp. reflexivity.
  - assert (A : startswith "///" ("//" +++ join "/" cs) = false).
    { destruct (startswith "///" _) eqn:X; auto. apply startswith_iff in X as [b X].
      exfalso. apply (J b). inversion X; auto. }
    rewrite A. change (String.eqb ("//" +++ join "/" cs) "") with false. cbv iota.
    change (startswith "//" ("//" +++ join "/" cs)) with true. unfold isabs.
    change (startswith "/" ("//" +++ join "/" cs)) with true. cbn [andb negb]. cbv iota.
    assert (S1 : split_char slash ("//" +++ join "/" cs) = "" :: "" :: split_char slash (join "/" cs)) by reflexivity.
    rewrite S1. cbn [norm_comps String.eqb orb]. rewrite Sp. reflexivity.
Qed.
Lemma abspath_built cwd p : isabs cwd = true -> exists sl cs, (sl = "/" \/ sl = "//") /\ Forall plain_comp cs /\ abspath cwd p = sl +++ join "/" cs.
Proof.
  intros C. unfold abspath. set (x := if isabs p then p else path_join cwd p).
  assert (H : isabs x = true).
  { unfold x. destruct (isabs p) eqn:Ep; auto. unfold path_join. rewrite Ep. apply startswith_iff in C as [b ->]. unfold isabs. destruct (_ || _); reflexivity. }
  exists (if startswith "//" x && negb (startswith "///" x) then "//" else "/"), (norm_comps true [] (split_char slash x)).
  split; [destruct (_ && _); auto|]. split; [apply norm_comps_plain; [constructor|apply split_comps]|].
  unfold normpath. destruct (String.eqb x "") eqn:Ep; [apply String.eqb_eq in Ep; rewrite Ep in H; discriminate|].
  unfold isabs in *. rewrite H. destruct (startswith "//" x && negb (startswith "///" x)); reflexivity.
Qed.
Lemma join_last cs n : cs <> [] -> join "/" (cs ++ [n]) = join "/" cs +++ "/" +++ n.
Proof.
  induction cs as [|x [|y cs] IH]; intros N; [congruence|reflexivity|].
  change (x +++ "/" +++ join "/" ((y :: cs) ++ [n]) = (x +++ "/" +++ join "/" (y :: cs)) +++ "/" +++ n).
  rewrite IH by discriminate. rewrite !app_assoc_s. reflexivity.
Qed.
Lemma join_end cs : Forall plain_comp cs -> cs <> [] -> exists a x, join "/" cs = a +++ String x "" /\ x <> "/"%char.
Proof.
  induction cs as [|y cs IH]; intros F N; [congruence|]. inversion F as [|y' l' (Y1 & _ & _ & Y4) F']; subst.
  destruct cs as [|z cs].
  - cbn [join]. assert (L : forall s, s <> "" -> exists a x, s = a +++ String x "").
    { clear. induction s as [|x s IH]; [congruence|]. intros _. destruct s as [|y s]; [exists "", x; reflexivity|].
      destruct IH as (a & w & E); [discriminate|]. exists (String x a), w. rewrite E. reflexivity. }
    destruct (L y Y1) as (a & x & ->). exists a, x. split; [reflexivity|]. intros ->. exact (Y4 a "" eq_refl).
  - destruct IH as (a & x & E & X); [exact F'|discriminate|]. exists (y +++ "/" +++ a), x. split; [|exact X].
    change (join "/" (y :: z :: cs)) with (y +++ "/" +++ join "/" (z :: cs)). rewrite E, !app_assoc_s. reflexivity.
Qed.
Lemma last_char a b x y : a +++ String x "" = b +++ String y "" -> x = y.
Proof.
  revert b. induction a as [|z a IH]; intros [|w b] H; cbn in H.
  - congruence.
  - injection H as _ H. destruct b; discriminate.
  - injection H as _ H. destruct a; discriminate.
  - injection H as _ H. exact (IH _ H).
Qed.
Lemma join_fixed cwd p n : isabs cwd = true -> plain_name n -> let a := abspath cwd p in abspath cwd (path_join a n) = path_join a n.
Proof.
  intros C (N1 & N2 & N3 & N4) a. destruct (abspath_built cwd p C) as (sl & cs & Hs & F & E). fold a in E.
  assert (NA : isabs n = false).
  { destruct (isabs n) eqn:X; [|reflexivity]. apply startswith_iff in X as [b ->]. contradiction (N4 "" b eq_refl). }
  assert (J : path_join a n = sl +++ join "/" (cs ++ [n])).
  { unfold path_join. rewrite NA, E. destruct cs as [|x cs].
    - cbn [join app]. destruct Hs as [-> | ->]; reflexivity.
    - rewrite join_last by discriminate. destruct (join_end _ F ltac:(discriminate)) as (b & y & E' & Y).
      replace (String.eqb (sl +++ join "/" (x :: cs)) "" || endswith "/" (sl +++ join "/" (x :: cs))) with false.
      + rewrite !app_assoc_s. reflexivity.
      + symmetry. apply orb_false_iff. split; [destruct Hs as [-> | ->]; reflexivity|].
        destruct (endswith "/" (sl +++ join "/" (x :: cs))) eqn:X; [|reflexivity]. apply endswith_iff in X as [t X]. exfalso.
        rewrite E' in X. rewrite <- app_assoc_s in X. apply Y. exact (last_char _ _ _ _ X). }
  rewrite J. unfold abspath. replace (isabs (sl +++ join "/" (cs ++ [n]))) with true by (destruct Hs as [-> | ->]; reflexivity).
  apply built_fixed; [exact Hs|]. apply Forall_app. split; [exact F|]. constructor; [|constructor]. repeat split; assumption.
Qed.

(** *** What is found *)
Section Given.
  Variables (w : world) (c : config).
  Let fs := w_fs w. Let cwd := w_cwd w. Let search := w_search w. Let hidden := c_analyze_hidden c. Let ignore := ignore_chars_of c.
  Let scan := c_scan_symlink_folders c.
  Definition finds (paths : list string) (q : string) : Prop := should_find fs cwd search c hidden ignore scan (input_paths w c paths) q.
  Definition looks (paths : list string) (d : nat) (p : string) : Prop := looked_at fs cwd search c hidden ignore scan (input_paths w c paths) d p.
  Lemma found_iff fuel paths l : found_files w c fuel paths = Some (Ok l) -> forall q, In q l <-> finds paths q.
  Proof.
    unfold found_files. intros H q. destruct (detect_paths _ _ _ _ _ _ _ fuel _) as [[m|e]|] eqn:D; try discriminate.
    injection H as <-. rewrite isort_In, dedup_In. exact (detect_ok _ _ _ _ _ _ _ _ _ _ D q).
  Qed.
  Lemma found_same fuel fuel' paths paths' l l' : found_files w c fuel paths = Some (Ok l) -> found_files w c fuel' paths' = Some (Ok l') ->
    (forall q, finds paths q <-> finds paths' q) -> l = l'.
  Proof.
    intros H H' E. assert (I := found_iff _ _ _ H). assert (I' := found_iff _ _ _ H'). unfold found_files in H, H'.
    destruct (detect_paths _ _ _ _ _ _ _ fuel _) as [[m|e]|]; try discriminate.
    destruct (detect_paths _ _ _ _ _ _ _ fuel' _) as [[m'|e]|]; try discriminate.
    injection H as <-. injection H' as <-. apply isort_str_eq; try apply dedup_NoDup. intros q.
    assert (K : In q (isort str_leb (dedup m)) <-> In q (isort str_leb (dedup m'))) by (rewrite I, I'; apply E). rewrite !isort_In in K. exact K.
  Qed.
  Lemma looks_app a b d p : looks (a ++ b) d p <-> looks a d p \/ looks b d p.
  Proof.
    assert (X : forall l, input_paths w c (l ++ b) = input_paths w c l ++ input_paths w c b) by (intros l; unfold input_paths; destruct (c_make_paths_absolute c); [apply map_app|reflexivity]).
    unfold looks. rewrite X. split.
    - induction 1 as [p I|d p names n L IH N S F E I Hd].
      + apply in_app_iff in I as [I|I]; [left|right]; apply LGiven; exact I.
      + destruct IH as [IH|IH]; [left|right]; eapply LEntry; eauto.
    - intros [H|H]; induction H as [p I|d p names n L IH N S F E I Hd]; try (apply LGiven; apply in_app_iff; auto; fail); eapply LEntry; eauto.
  Qed.
  Lemma finds_app a b q : finds (a ++ b) q <-> finds a q \/ finds b q.
  Proof.
    unfold finds, should_find. split.
    - intros (d & p & L & R). apply looks_app in L as [L|L]; [left|right]; exists d, p; auto.
    - intros [(d & p & L & R)|(d & p & L & R)]; exists d, p; (split; [apply looks_app; auto|exact R]).
  Qed.
  Lemma finds_incl a b q : (forall p, In p a -> In p b) -> finds a q -> finds b q.
  Proof.
    intros I (d & p & L & R). exists d, p. split; [|exact R]. clear R.
    assert (J : forall p, In p (input_paths w c a) -> In p (input_paths w c b)).
    { intros x. unfold input_paths. destruct (c_make_paths_absolute c); [|apply I]. rewrite !in_map_iff. intros (y & E & K). exists y. auto. }
    induction L as [p K|d p names n L IH N S F E K Hd]; [apply LGiven, J, K|]. eapply LEntry; eauto.
  Qed.

  Hypothesis Abs : c_make_paths_absolute c = true -> isabs cwd = true /\ plain_listings fs.

  (** A path come to is the one that is asked about. *)
  Lemma looks_actual paths d p : looks paths d p -> actual cwd c p = p.
  Proof.
    unfold actual. destruct (c_make_paths_absolute c) eqn:A; [|reflexivity]. destruct (Abs eq_refl) as [C P].
    intros L. destruct L as [p I|d p names n L N S F E I Hd].
    - unfold input_paths in I. rewrite A in I. apply in_map_iff in I as (x & <- & _). apply abspath_fixed. exact C.
    - unfold actual. rewrite A. apply join_fixed; [exact C|]. unfold actual in E. rewrite A in E. exact (P _ _ _ E I).
  Qed.

  (** A file that is found is found if given. *)
  Lemma given_found paths l p q : finds paths q -> names_path c cwd p q -> In p l -> finds l q.
  Proof.
    intros (d & x & L & N & S & E & F & _) Nm I. assert (A := looks_actual _ _ _ L). rewrite A in E. subst x.
    exists O, q. split.
    - apply LGiven. unfold input_paths. unfold names_path in Nm. destruct (c_make_paths_absolute c); [|rewrite Nm; exact I].
      subst q. apply in_map. exact I.
    - split; [exact N|]. split; [exact S|]. split; [symmetry; exact A|]. split; [exact F|left; reflexivity].
  Qed.

  (** Paths that name found files lead to no others. *)
  Lemma named_only paths l : (forall p, In p l -> exists q, names_path c cwd p q /\ finds paths q) -> forall q, finds l q -> finds paths q.
  Proof.
    intros G q (d & x & L & N & S & E & F & P).
    assert (K : d = O /\ finds paths x).
    { clear N S E F P. induction L as [p I|d p names n L IH N S F E I Hd].
      - split; [reflexivity|]. unfold input_paths in I. destruct (c_make_paths_absolute c) eqn:A.
        + apply in_map_iff in I as (y & <- & I). destruct (G _ I) as (q' & Nm & Fi). unfold names_path in Nm. rewrite A in Nm. subst q'. exact Fi.
        + destruct (G _ I) as (q' & Nm & Fi). unfold names_path in Nm. rewrite A in Nm. subst q'. exact Fi.
      - exfalso. destruct IH as (_ & Fi). assert (A := looks_actual l d p L).
        destruct Fi as (d' & y & _ & _ & _ & _ & Fr & _). rewrite A in F. unfold is_file, is_folder, fs in *.
        destruct F as [F|(_ & F1 & F2)], Fr as [Fr|(Fr1 & Fr2)]; congruence. }
    destruct K as [-> Fi]. assert (A := looks_actual _ _ _ L). rewrite A in E. subst x. exact Fi.
  Qed.

  Lemma other_found fuel paths files paths' q : found_files w c fuel paths = Some (Ok files) -> other_way c cwd paths files paths' ->
    (finds paths q <-> finds paths' q).
  Proof.
    intros H [O1 O2]. assert (I := found_iff _ _ _ H). split.
    - intros Fi. destruct O2 as [O2|O2]; [exact (finds_incl _ _ _ O2 Fi)|]. destruct (O2 q) as (p & Ip & Nm); [apply I; exact Fi|].
      exact (given_found _ _ _ _ Fi Nm Ip).
    - intros Fi. assert (Dc : forall l, (forall p, In p l -> In p paths \/ exists q, names_path c cwd p q /\ In q files) ->
        exists a b, (forall p, In p a -> In p paths) /\ (forall p, In p b -> exists q, names_path c cwd p q /\ finds paths q) /\ forall p, In p l -> In p (a ++ b)).
      { induction l as [|p l IH]; intros G; [exists [], []; repeat split; auto; intros p []|].
        destruct IH as (a & b & A & B & C); [intros x X; apply G; right; exact X|]. destruct (G p (or_introl eq_refl)) as [X|(y & Nm & X)].
        - exists (p :: a), b. split; [intros x [<-|Y]; auto|]. split; [exact B|]. intros x [<-|Y]; [left; reflexivity|right; auto].
        - exists a, (p :: b). split; [exact A|]. split.
          + intros x [<-|Z]; [|auto]. exists y. split; [exact Nm|apply I; exact X].
          + intros x [<-|Z]; apply in_app_iff; [right; left; reflexivity|]. specialize (C x Z). apply in_app_iff in C as [C|C]; [left|right; right]; exact C. }
      destruct (Dc paths' O1) as (a & b & A & B & C). apply (finds_incl _ (a ++ b) _ C) in Fi. apply finds_app in Fi as [Fi|Fi].
      + exact (finds_incl _ _ _ A Fi).
      + exact (named_only _ _ B _ Fi).
  Qed.

  Lemma empty_given paths d : looks paths d "" -> In "" (input_paths w c paths).
  Proof.
    intros L. remember "" as e eqn:Ee. revert Ee. induction L as [p I|d p names n L IH N S F E I Hd]; intros Ee; [exact I|]. rewrite Ee.
    unfold path_join in Ee. destruct (isabs n) eqn:An; [subst n; discriminate An|].
    assert (Z : actual cwd c p = "").
    { revert Ee. clear. generalize (actual cwd c p). intros s Ee. destruct s as [|x s]; [reflexivity|]. exfalso.
      destruct (String.eqb (String x s) "" || endswith "/" (String x s)); discriminate Ee. }
    assert (A := looks_actual _ _ _ L). rewrite A in Z. specialize (IH Z). rewrite Z in IH. exact IH.
  Qed.
  (** No other way fails. *)
  Lemma other_good fuel fuel' paths files paths' e : found_files w c fuel paths = Some (Ok files) -> other_way c cwd paths files paths' ->
    found_files w c fuel' paths' <> Some (Err e).
  Proof.
    intros H [O _] R. assert (I := found_iff _ _ _ H). unfold found_files in R. destruct (detect_paths _ _ _ _ _ _ _ fuel' _) as [[m|e']|] eqn:D; try discriminate R.
    apply detect_err in D as (_ & _ & Hd & B & N). assert (La := looks_actual). assert (Lg := empty_given).
    assert (G : In "" (input_paths w c paths)).
    { unfold input_paths in B. destruct (c_make_paths_absolute c) eqn:Ab.
      - exfalso. apply in_map_iff in B as (y & E & _). destruct (Abs eq_refl) as [C _].
        destruct (abspath_abs cwd y C) as [r K]. unfold cwd in K. rewrite E in K. discriminate K.
      - unfold input_paths. rewrite Ab. destruct (O _ B) as [K|(q & Nm & K)]; [exact K|]. unfold names_path in Nm. rewrite Ab in Nm. subst q.
        apply I in K as (d & x & L & _ & _ & E & _). assert (A := La _ _ _ L). rewrite A in E. subst x.
        assert (Z := Lg _ _ L). unfold input_paths in Z. rewrite Ab in Z. exact Z. }
    unfold found_files in H. destruct (detect_paths _ _ _ _ _ _ _ fuel _) as [[m|e2]|] eqn:D; try discriminate H.
    assert (Fu : (0 < fuel)%nat) by (destruct fuel; [discriminate D|lia]).
    assert (D' := proj2 (detect_err fs cwd search c hidden ignore scan fuel (input_paths w c paths) IndexError) (conj Fu (conj eq_refl (conj Hd (conj G N))))).
    unfold fs, cwd, search, hidden, ignore, scan in D'. congruence.
  Qed.
  Lemma other_same fuel fuel' paths files paths' r : found_files w c fuel paths = Some (Ok files) -> other_way c cwd paths files paths' ->
    found_files w c fuel' paths' = Some r -> r = Ok files.
  Proof.
    intros H O R. destruct r as [l|e]; [|destruct (other_good _ _ _ _ _ _ H O R)].
    rewrite (found_same _ _ _ _ _ _ H R (fun q => other_found _ _ _ _ q H O)). reflexivity.
  Qed.
  (** The files by themselves need two rounds. *)
  Lemma files_found fuel k paths files : found_files w c fuel paths = Some (Ok files) -> found_files w c (S (S k)) files = Some (Ok files).
  Proof.
    intros H. assert (I := found_iff _ _ _ H).
    assert (Nm : forall q, In q files -> names_path c cwd q q).
    { intros q Q. apply I in Q as (d & x & L & _ & _ & E & _). assert (A := looks_actual _ _ _ L). rewrite A in E. subst x. symmetry. exact A. }
    assert (O : other_way c cwd paths files files) by (split; [intros p P; right; exists p; auto|right; intros q Q; exists q; auto]).
    assert (R : exists r, found_files w c (S (S k)) files = Some r).
    { assert (L1 : forall p, ~ looks files 1 p).
      { intros p L. inversion L as [|d x names n L' N S F E J Hd]; subst. assert (A := looks_actual _ _ _ L').
        inversion L' as [y Y|]; subst. unfold input_paths in Y.
        assert (Fi : In x files).
        { destruct (c_make_paths_absolute c) eqn:Ab; [|exact Y]. apply in_map_iff in Y as (y & <- & Y). assert (M := Nm _ Y). unfold names_path in M. rewrite Ab in M.
          fold cwd. rewrite <- M. exact Y. }
        apply I in Fi as (d' & y & _ & _ & _ & _ & Fr & _). rewrite A in F. unfold is_file, is_folder, fs in *.
        destruct F as [F|(_ & F1 & F2)], Fr as [Fr|(Fr1 & Fr2)]; congruence. }
      destruct (detect_total _ _ _ _ _ _ _ 1 _ L1 (S (S k)) ltac:(lia)) as [r E]. unfold found_files. exists (mapr (fun l => isort str_leb (dedup l)) r).
      fold fs cwd search hidden ignore scan. rewrite E. reflexivity. }
    destruct R as [[l|e] R].
    - rewrite R. rewrite (found_same _ _ _ _ _ _ H R (fun q => other_found _ _ _ _ q H O)). reflexivity.
    - exfalso. exact (other_good _ _ _ _ _ _ H O R).
  Qed.
End Given.
