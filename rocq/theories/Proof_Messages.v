(** Proofs for Spec_Messages (C69). *)
From Verif Require Import PyBase PyLemmas Utility RulesData Rules Config Formats Paths AstKinds Ast State Visitor
  MinVersions Parser Detection Arguments Processor Main UsageData Usage Messages
  Spec_Base Spec_Utility Proof_Utility Spec_Config Proof_Config Spec_Rules Proof_Rules Spec_Args Proof_Args Spec_Messages.

(** ** Config files *)
Lemma tbind_inr : forall A B (x : told A) (f : A -> told B) l, tbind x f = inr l ->
  x = inr l \/ exists a, x = inl a /\ f a = inr l.
Proof. intros A B [a|e] f l H; cbn in H; [eauto|]. left. congruence. Qed.
Lemma tbind_inl : forall A B (x : told A) (f : A -> told B) b, tbind x f = inl b ->
  exists a, x = inl a /\ f a = inl b.
Proof. intros A B [a|e] f l H; cbn in H; eauto. discriminate. Qed.

Lemma raised_inr : forall et A p (r : res A) l, raised et p r = inr l ->
  l = ["Could not load config file: " +++ p; et p] /\ exists e, r = Err e.
Proof. intros et A p [x|e] l H; cbn in H; [discriminate|]. injection H as <-. eauto. Qed.

Lemma fold_told_inr : forall A B (f : A -> B -> told A) l a r, fold_told f l a = inr r ->
  exists front x back a', l = front ++ x :: back /\ fold_told f front a = inl a' /\ f a' x = inr r.
Proof.
  intros A B f l. induction l as [|x l IH]; intros a r H; cbn in H; [discriminate|].
  destruct (f a x) as [b|e] eqn:E; cbn [tbind] in H.
  - destruct (IH _ _ H) as (fr & y & bk & a' & -> & F & G). exists (x :: fr), y, bk, a'. cbn. rewrite E. cbn. auto.
  - injection H as ->. exists [], x, l, a. auto.
Qed.

Definition agree {A} (r : res A) (t : told A) : Prop :=
  match r with Ok b => t = inl b | Err _ => exists l, t = inr l end.
Lemma agree_bind : forall A B (r : res A) t (k : A -> res B) k', agree r t -> (forall b, agree (k b) (k' b)) ->
  agree (bindr r k) (tbind t k').
Proof.
  intros A B [b|e] t k k' H K; cbn in H.
  - rewrite H. cbn. apply K.
  - destruct H as [l ->]. cbn. eauto.
Qed.
Lemma agree_raised : forall et p A (r : res A), agree r (raised et p r).
Proof. intros et p A [b|e]; cbn; eauto. Qed.
Lemma agree_fold : forall A B (f : A -> B -> told A) (g : A -> B -> res A) l a,
  (forall a x, agree (g a x) (f a x)) -> agree (fold_res g l a) (fold_told f l a).
Proof.
  intros A B f g l a H. revert a. induction l as [|x l IH]; intros a; cbn [fold_res fold_told]; [reflexivity|].
  apply agree_bind; auto.
Qed.

Section Sec.
  Variable cpus : Z.
  Variable re_ok : string -> bool.
  Variable et : string -> string.

  (** The model with texts and the one without agree. *)
  Lemma section_agree : forall p sec, agree (parse_section cpus re_ok sec) (section_told cpus re_ok et p sec).
  Proof.
    intros p sec. unfold parse_section, section_told. cbv zeta.
    repeat (apply agree_bind; [first [apply agree_raised | apply agree_fold; intros cc xx; first [apply agree_raised|idtac]]|intros ?]).
    - unfold add_backport. destruct (is_backport xx); cbn; eauto.
    - unfold enable_feature. destruct (is_feature xx); cbn; eauto.
    - destruct (add_target (TStr xx) cc) as [c' []]; cbn; eauto.
    - destruct (sec_get sec "format") as [[v|]|e]; cbn; eauto. destruct (from_name (strip v)); cbn; eauto.
  Qed.

  Lemma getbool_err : forall sec o e, getbool sec o = Err e -> ~ has_text sec o.
  Proof.
    intros sec o e H [v V]. unfold getbool in H. rewrite V in H. destruct (boolean_state v); [discriminate|].
    destruct (sec_default sec o); discriminate.
  Qed.
  Lemma getuint_err : forall sec o e, getuint sec o = Err e -> forall n, ~ uint_opt sec o n.
  Proof.
    intros sec o e H n (v & V & K). unfold getuint in H. rewrite V in H. destruct K as [(N & I & L)|(-> & d & D & I)].
    - apply String.eqb_neq in N. rewrite N, I in H. destruct (n <? 0) eqn:Q; [lia|discriminate].
    - cbn in H. rewrite D, I in H. discriminate.
  Qed.
  Lemma getlist_err : forall sec o e, getstringlist sec o = Err e -> ~ has_text sec o.
  Proof. intros sec o e H [v V]. unfold getstringlist in H. rewrite V in H. discriminate. Qed.
  Lemma getlist_ok : forall sec o l, getstringlist sec o = Ok l -> list_opt sec o l.
  Proof.
    intros sec o l H. unfold getstringlist in H. destruct (sec_get sec o) as [[v|]|e] eqn:E; try discriminate.
    injection H as <-. exists v. auto.
  Qed.
  Lemma raised_inl : forall p A (r : res A) x, raised et p r = inl x -> r = Ok x.
  Proof. intros p A [y|e] x H; cbn in H; congruence. Qed.

  Definition backport_step (c : config) (x : string) : told config :=
    match add_backport x c with (c', true) => inl c' | _ => inr ["Unknown backport: " +++ x] end.
  Definition feature_step (c : config) (x : string) : told config :=
    match enable_feature x c with (c', true) => inl c' | _ => inr ["Unknown feature: " +++ x] end.
  Definition target_step (c : config) (x : string) : told config :=
    match add_target (TStr x) c with (c', RTrue) => inl c' | _ => inr (target_said x c) end.

  Lemma fold_keep : forall A (f : config -> A -> told config), (forall c x c', f c x = inl c' -> c_targets c' = c_targets c) ->
    forall l c c', fold_told f l c = inl c' -> c_targets c' = c_targets c.
  Proof.
    intros A f H l. induction l as [|x l IH]; intros c c' E; cbn in E; [congruence|].
    apply tbind_inl in E as (b & E1 & E2). rewrite (IH _ _ E2). eauto.
  Qed.
  Lemma fold_targets : forall l c c', fold_told target_step l c = inl c' ->
    List.length (c_targets c') = (List.length (c_targets c) + List.length l)%nat.
  Proof.
    intros l. induction l as [|x l IH]; intros c c' E; cbn in E; [injection E as ->; cbn; lia|].
    apply tbind_inl in E as (b & E1 & E2). rewrite (IH _ _ E2). unfold target_step, add_target in E1.
    destruct (List.length (c_targets c) =? 2)%nat; [discriminate|].
    destruct (parse_target x); [|discriminate]. injection E1 as <-. cbn [c_targets w_targets List.length].
    rewrite isort_length, app_length. cbn. lia.
  Qed.
  Lemma a_target_iff : forall v, a_target v <-> exists t, parse_target v = Some t.
  Proof. intros v. split; intros [t H]; exists t; apply parse_target_iff; auto. Qed.

  Lemma from_name_iff : forall n, known_format n <-> exists f, from_name n = Some f.
  Proof.
    intros n. unfold known_format, from_name. change (map fst formats_table) with ["default"; "parsable"]. cbn [In].
    destruct (String.eqb_spec n "default") as [->|A]; [split; [eauto|auto]|].
    destruct (String.eqb_spec n "parsable") as [->|B]; [split; [eauto|auto]|].
    split; [intros [K|[K|[]]]; congruence|intros [f K]; discriminate].
  Qed.

  Lemma section_fault : forall p sec l, section_told cpus re_ok et p sec = inr l ->
    file_fault re_ok p (et p) (CfgSection sec) l.
  Proof.
    intros p sec l H. unfold section_told in H. cbv zeta in H.
    Ltac next H :=
      apply tbind_inr in H as [H|(? & ? & H)];
      [apply raised_inr in H as [-> [? H]]; apply ff_value|].
    do 12 (next H; [first [eapply bv_bool; [|eapply getbool_err; exact H]; unfold bool_names; cbn; tauto
                          |eapply bv_uint; [|eapply getuint_err; exact H]; cbn; tauto]|]).
    do 2 (next H; [eapply bv_list; [|eapply getlist_err; exact H]; cbn; tauto|]).
    apply tbind_inr in H as [H|(c1 & E1 & H)].
    { apply fold_told_inr in H as (fr & y & bk & a' & -> & _ & G). apply raised_inr in G as [-> [? G]]. apply ff_value.
      match goal with K : raised et p (getstringlist sec "exclusion_regex") = inl _ |- _ => apply raised_inl, getlist_ok in K;
        eapply (bv_regex _ _ _ y K) end.
      - apply in_or_app. right. left. reflexivity.
      - unfold add_exclusion_regex in G. destruct (re_ok y); [discriminate|reflexivity]. }
    next H; [eapply bv_bool; [|eapply getbool_err; exact H]; unfold bool_names; cbn; tauto|].
    next H; [eapply bv_list; [|eapply getlist_err; exact H]; cbn; tauto|].
    apply tbind_inr in H as [H|(c2 & E2 & H)].
    { apply fold_told_inr in H as (fr & y & bk & a' & -> & _ & G).
      unfold add_backport in G. destruct (is_backport y) eqn:B; [discriminate|]. injection G as <-.
      match goal with K : raised et p (getstringlist sec "backports") = inl _ |- _ => apply raised_inl, getlist_ok in K;
        eapply ff_backport; [exact K| |] end.
      - apply in_or_app. right. left. reflexivity.
      - intros K. apply is_backport_iff in K. congruence. }
    next H; [eapply bv_list; [|eapply getlist_err; exact H]; cbn; tauto|].
    apply tbind_inr in H as [H|(c3 & E3 & H)].
    { apply fold_told_inr in H as (fr & y & bk & a' & -> & _ & G).
      unfold enable_feature in G. destruct (is_feature y) eqn:B; [discriminate|]. injection G as <-.
      match goal with K : raised et p (getstringlist sec "features") = inl _ |- _ => apply raised_inl, getlist_ok in K;
        eapply ff_feature; [exact K| |] end.
      - apply in_or_app. right. left. reflexivity.
      - intros K. apply is_feature_iff in K. congruence. }
    next H; [eapply bv_list; [|eapply getlist_err; exact H]; cbn; tauto|].
    match goal with K : raised et p (getstringlist sec "targets") = inl ?l |- _ => apply raised_inl, getlist_ok in K; rename K into KT end.
    apply tbind_inr in H as [H|(c4 & E4 & H)].
    { apply fold_told_inr in H as (fr & y & bk & a' & -> & F & G).
      assert (L : List.length (c_targets a') = List.length fr).
      { apply (fold_targets fr c3) in F. rewrite F.
        replace (c_targets c3) with (@nil target); [reflexivity|]. symmetry.
        assert (K3 : c_targets c3 = c_targets c2).
        { eapply (fold_keep _ feature_step); [|exact E3]. intros c z c'' Q. unfold feature_step, enable_feature in Q.
          destruct (is_feature z); [injection Q as <-; reflexivity|discriminate]. }
        assert (K2 : c_targets c2 = c_targets c1).
        { rewrite (fold_keep _ backport_step) with (2 := E2); [reflexivity|]. intros c z c'' Q. unfold backport_step, add_backport in Q.
          destruct (is_backport z); [injection Q as <-; reflexivity|discriminate]. }
        assert (K1 : c_targets c1 = []).
        { rewrite (fold_keep _ (fun c x => raised et p (add_exclusion_regex re_ok x c))) with (2 := E1).
          - assert (KE : forall l c, c_targets (fold_left (fun c x => add_exclusion x c) l c) = c_targets c).
            { intros l0. induction l0 as [|z l0 IH]; intros c; cbn [fold_left]; [reflexivity|]. rewrite IH. reflexivity. }
            rewrite KE. reflexivity.
          - intros c z c'' Q. apply raised_inl in Q. unfold add_exclusion_regex in Q. destruct (re_ok z); [|discriminate].
            injection Q as <-. reflexivity. }
        congruence. }
      unfold add_target, target_said in G. rewrite L in G.
      destruct (List.length fr =? 2)%nat eqn:Q2.
      - injection G as <-. eapply ff_third; [exact KT| |].
        + apply in_or_app. right. left. reflexivity.
        + rewrite app_length. cbn. apply Nat.eqb_eq in Q2. lia.
      - destruct (parse_target y) eqn:PT; [discriminate|]. injection G as <-. eapply ff_target; [exact KT| |].
        + apply in_or_app. right. left. reflexivity.
        + intros A. apply a_target_iff in A as [t T]. congruence. }
    destruct (sec_get sec "format") as [[v|]|e] eqn:E.
    - destruct (from_name (strip v)) eqn:FN; [discriminate|]. injection H as <-. apply ff_format; [exact E|].
      intros K. apply from_name_iff in K as [f K]. congruence.
    - injection H as <-. apply ff_value. apply (bv_list _ _ "format"); [cbn; tauto|]. intros [v V]. congruence.
    - injection H as <-. apply ff_value. apply (bv_list _ _ "format"); [cbn; tauto|]. intros [v V]. congruence.
  Qed.

  Lemma file_agree : forall cfg p, match parse_file cpus re_ok (cfg p) with
    | Some c => file_told cpus re_ok cfg et p = inl c
    | None => exists l, file_told cpus re_ok cfg et p = inr l /\ file_fault re_ok p (et p) (cfg p) l
    end.
  Proof.
    intros cfg p. unfold parse_file, file_told. destruct (cfg p) as [| | |sec].
    1-3: eexists; split; [reflexivity|constructor].
    assert (A := section_agree p sec). unfold agree in A. destruct (parse_section cpus re_ok sec); [exact A|].
    destruct A as [l A]. exists l. split; [exact A|]. apply section_fault, A.
  Qed.
End Sec.

(** ** Backports that are not known *)
Lemma version_filter_based : forall n, based_on n (version_filter n).
Proof.
  intros n. destruct (version_filter_spec n) as [V N]. unfold version_filter in *.
  destruct (span is_word_dot n) as [a b] eqn:S. apply span_parts in S as [E W].
  destruct (negb (a =? "")%string && startswith "==" b && negb (upto_newline (sdrop 2 b) =? "")%string) eqn:Q.
  - left. apply andb_prop in Q as [Q Q3]. apply andb_prop in Q as [Q1 Q2]. split; [|split].
    + intros ->. discriminate.
    + intros c I. apply is_word_dot_iff, W, I.
    + apply Proof_Strings.startswith_iff in Q2 as ([|c r] & ->); [discriminate|]. exists c, r. split; [exact E|]. intros ->. discriminate.
  - right. split; [reflexivity|]. intros x X. assert (Y := V x X). subst x. destruct X as (_ & _ & c & r & X & _).
    apply (f_equal String.length) in X. rewrite !length_app_s in X. cbn in X. lia.
Qed.
Lemma based_unique : forall n a, based_on n a -> a = version_filter n.
Proof.
  intros n a [V|[-> N]]; destruct (version_filter_spec n) as [A B].
  - symmetry. auto.
  - symmetry. auto.
Qed.
Lemma same_base_iff : forall n m, same_base n m <-> version_filter m = version_filter n.
Proof.
  intros n m. split.
  - intros (b & A & B). apply based_unique in A, B. congruence.
  - intros E. exists (version_filter n). split; [apply version_filter_based|]. rewrite <- E. apply version_filter_based.
Qed.

Lemma expand_same : forall n e, In e (expand_versions (version_filter n)) <-> In e backports_table /\ same_base n (fst (fst e)).
Proof. intros n e. rewrite expand_In, same_base_iff. reflexivity. Qed.

Lemma backport_said_spec : forall n, exists meant,
  backport_said n = Ok (("Unknown backport: " +++ n) :: meant ++ ["Get the full list of backports via `--help`."]) /\
  suggestion n meant.
Proof.
  intros n. unfold backport_said. assert (K := expand_same n). set (es := expand_versions (version_filter n)) in *.
  destruct es as [|e es'] eqn:E; cbv zeta.
  - exists []. split; [reflexivity|]. apply sg_none. intros m M S. unfold known_backport in M. apply in_map_iff in M as (e & <- & I).
    apply (K e). auto.
  - rewrite <- E in *. assert (NE : es <> []) by (rewrite E; discriminate).
    assert ((0 <? List.length es)%nat = true) as -> by (apply Nat.ltb_lt; rewrite E; cbn; lia).
    destruct (format_title_descs_listing (map backport_entry es) backport_modules 2) as (w & ls & F & L & _).
    { intros Q. vm_compute in Q. discriminate. }
    { intros p I. apply in_map_iff in I as (x & <- & I). split; [|discriminate]. apply K in I as [I _].
      unfold backport_modules. apply (in_map (fun e => fst (fst e))) in I. exact I. }
    exists ["Did you mean one of the following?"; join nl ls]. split; [|eapply sg_some; eauto].
    unfold backports_str. change (fun e : string * string * mins => (bp_name e, [snd (fst e) +++ " (" +++ mins_str ", " (bp_mins e) +++ ")"])) with backport_entry.
    rewrite F. reflexivity.
Qed.

(** ** One argument *)
Lemma split_first : forall t, exists v rest, t = v +++ rest /\ no_eq v /\ (rest = "" \/ exists r, rest = String "=" r) /\
  nth 0 (split_char "="%char t) "" = v.
Proof.
  induction t as [|c t (v & rest & E & N & R & S)].
  - exists "", "". unfold no_eq. cbn. auto.
  - unfold split_char in *. cbn [split_on]. destruct (Ascii.eqb_spec "=" c) as [<-|Q].
    + exists "", (String "=" t). unfold no_eq. split; [reflexivity|]. split; [cbn; tauto|]. split; [right; eauto|reflexivity].
    + exists (String c v), rest. split; [cbn; f_equal; exact E|]. split; [|split; [exact R|]].
      * unfold no_eq in *. cbn. intros [->|I]; auto.
      * destruct (split_on (Ascii.eqb "=") t) as [|h r]; cbn in *; congruence.
Qed.
Lemma after_eq_spec : forall p a, In p ["-t="; "--target="; "-p="; "--processes="] -> startswith p a = true ->
  exists rest, a = p +++ after_eq a +++ rest /\ no_eq (after_eq a) /\ (rest = "" \/ exists r, rest = String "=" r).
Proof.
  intros p a I S. apply Proof_Strings.startswith_iff in S as [t ->]. destruct (split_first t) as (v & rest & E & N & R & T).
  assert (A : after_eq (p +++ t) = v).
  { unfold after_eq. rewrite <- T. unfold split_char. cbn [In] in I.
    destruct I as [<-|[<-|[<-|[<-|[]]]]]; cbn -[Ascii.eqb]; destruct (split_on (Ascii.eqb "=") t); reflexivity. }
  exists rest. rewrite A, E. auto.
Qed.

Section Arg.
  Variable cpus : Z.
  Variable re_ok : string -> bool.
  Variable excl_file : string -> option (list string).
  Variable et : string -> string.

  Notation parse_arg := (parse_arg cpus re_ok excl_file).
  Notation arg_said := (arg_said excl_file et).

  (** Refusals that depend on one argument, the next one and the number of targets so far. *)
  Inductive arg_refusal (a : string) (next : option string) (tn : nat) : list string -> Prop :=
  | ar_operand t : next = None -> In (a, t) operand_texts -> arg_refusal a next tn [t]
  | ar_target v : gives [a] ["-t="; "--target="] v -> ~ a_target v -> arg_refusal a next tn ["Invalid target: " +++ v]
  | ar_third v : gives [a] ["-t="; "--target="] v -> tn = 2%nat ->
      arg_refusal a next tn ["A maximum of two targets can be specified!"; "Invalid target: " +++ v]
  | ar_number v : gives [a] ["-p="; "--processes="] v -> py_int v = None -> arg_refusal a next tn ["Invalid value: " +++ v]
  | ar_positive v n : gives [a] ["-p="; "--processes="] v -> py_int v = Some n -> n <= 0 ->
      arg_refusal a next tn ["Non-positive number: " +++ z_str n]
  | ar_format n : In a ["--format"; "-f"] -> next = Some n -> ~ known_format (lower n) ->
      arg_refusal a next tn ["Unknown format: " +++ lower n]
  | ar_backport n meant : a = "--backport" -> next = Some n -> ~ known_backport n -> suggestion n meant ->
      arg_refusal a next tn (("Unknown backport: " +++ n) :: meant ++ ["Get the full list of backports via `--help`."])
  | ar_feature n : a = "--feature" -> next = Some n -> ~ known_feature n -> arg_refusal a next tn ["Unknown feature: " +++ n].

  Lemma gives_one : forall a ps p, (ps = ["-t="; "--target="] \/ ps = ["-p="; "--processes="]) -> In p ps ->
    startswith p a = true -> gives [a] ps (after_eq a).
  Proof.
    intros a ps p P I S. destruct (after_eq_spec p a) as (rest & E & N & R); auto.
    { destruct P as [-> | ->]; cbn in *; tauto. }
    exists p, rest. rewrite <- E. cbn. auto.
  Qed.

  Definition unread_one (a : string) (next : option string) : list string :=
    match next with
    | Some n => if String.eqb a "--exclude-file" then match excl_file n with None => [n] | Some _ => [] end else []
    | None => []
    end.

  Lemma flag_targets : forall a f c, flag_effect a = Some f -> (List.length (c_targets (f c)) <= List.length (c_targets c))%nat.
  Proof.
    intros a f c H. unfold flag_effect in H.
    repeat match type of H with (if ?b then _ else _) = _ => destruct b end; try discriminate;
      injection H as <-; cbn; lia.
  Qed.
  Lemma flag_not_excl : flag_effect "--exclude-file" = None. Proof. reflexivity. Qed.

  Lemma arg_cases : forall a next s,
    match parse_arg a next s with
    | SGo s' => arg_said a next s = Ok (map et (unread_one a next)) /\
        (List.length (c_targets (p_config s')) <=
         List.length (c_targets (p_config s)) + (if gives_target a then 1 else 0))%nat
    | SFail => exists l, arg_said a next s = Ok l /\ arg_refusal a next (List.length (c_targets (p_config s))) l
    | SRaise _ => exists l, arg_said a next s = Ok l
    end.
  Proof.
    intros a next s. unfold Arguments.parse_arg, Messages.arg_said.
    assert (NU : a <> "--exclude-file" -> map et (unread_one a next) = []).
    { intros Q. unfold unread_one. destruct next; [|reflexivity]. apply String.eqb_neq in Q. rewrite Q. reflexivity. }
    destruct (mem a ["--config-file"; "-c"]) eqn:C.
    { cbn [adv p_config]. split; [|lia]. rewrite NU; [reflexivity|]. intros ->. discriminate. }
    destruct (flag_effect a) as [f|] eqn:F.
    { cbn [adv p_config]. split; [rewrite NU; [reflexivity|intros ->; discriminate]|]. assert (K := flag_targets a f (p_config s) F). lia. }
    destruct (startswith "-t=" a || startswith "--target=" a) eqn:T.
    { assert (G : gives [a] ["-t="; "--target="] (after_eq a)).
      { apply orb_prop in T as [T|T]; eapply gives_one; eauto; cbn; auto. }
      assert (GT : gives_target a = true) by exact T. rewrite GT.
      assert (NE : map et (unread_one a next) = []) by (apply NU; intros ->; discriminate).
      unfold add_target, target_said. destruct (List.length (c_targets (p_config s)) =? 2)%nat eqn:L.
      - eexists. split; [reflexivity|]. apply Nat.eqb_eq in L. apply ar_third; auto.
      - destruct (parse_target (after_eq a)) as [t|] eqn:PT.
        + cbn [adv p_config c_targets w_targets]. rewrite NE, isort_length, app_length. cbn [List.length]. split; [reflexivity|lia].
        + eexists. split; [reflexivity|]. apply ar_target; auto. intros A. apply a_target_iff in A as [t A]. congruence. }
    assert (GT : gives_target a = false) by exact T. rewrite GT.
    destruct (startswith "-p=" a || startswith "--processes=" a) eqn:P.
    { assert (G : gives [a] ["-p="; "--processes="] (after_eq a)).
      { apply orb_prop in P as [P|P]; eapply gives_one; eauto; cbn; auto. }
      assert (NE : map et (unread_one a next) = []) by (apply NU; intros ->; discriminate).
      destruct (py_int (after_eq a)) as [n|] eqn:PI.
      - destruct (n <=? 0) eqn:LE.
        + eexists. split; [reflexivity|]. eapply ar_positive; eauto. lia.
        + cbn [adv p_config]. rewrite NE. split; [reflexivity|]. unfold set_processes. cbn. lia.
      - eexists. split; [reflexivity|]. apply ar_number; auto. }
    destruct (String.eqb_spec a "--versions") as [->|V]; [cbn [p_config]; split; [rewrite NU; [reflexivity|discriminate]|lia]|].
    destruct (mem a ["--format"; "-f"]) eqn:FM.
    { apply mem_In in FM. destruct next as [n|].
      - destruct (from_name (lower n)) as [f|] eqn:FN.
        + cbn [p_config]. split; [rewrite NU; [reflexivity|intros ->; cbn in FM; intuition discriminate]|lia].
        + eexists. split; [reflexivity|]. eapply ar_format; eauto. intros K. apply from_name_iff in K as [f K]. congruence.
      - eexists. split; [reflexivity|]. apply ar_operand; auto. cbn in FM. unfold operand_texts. cbn.
        destruct FM as [<-|[<-|[]]]; tauto. }
    destruct (String.eqb_spec a "--exclude") as [->|X1].
    { destruct next as [n|]; [cbn [adv p_config]; split; [rewrite NU; [reflexivity|discriminate]|unfold add_exclusion; cbn; lia]|].
      eexists. split; [reflexivity|]. apply ar_operand; auto. unfold operand_texts. cbn. tauto. }
    destruct (String.eqb_spec a "--exclude-file") as [->|X2].
    { destruct next as [n|].
      - cbn [adv p_config]. split; [unfold unread_one; destruct (excl_file n); reflexivity|].
        unfold add_exclusion_file. destruct (excl_file n) as [ls|]; [|lia].
        assert (KE : forall l0 c, c_targets (fold_left (fun c x => add_exclusion (strip x) c) l0 c) = c_targets c).
        { intros l0. induction l0 as [|z l0 IH]; intros c; cbn [fold_left]; [reflexivity|]. rewrite IH. reflexivity. }
        rewrite KE. lia.
      - eexists. split; [reflexivity|]. apply ar_operand; auto. unfold operand_texts. cbn. tauto. }
    rewrite NU by exact X2.
    destruct (String.eqb_spec a "--exclude-regex") as [->|X3].
    { destruct next as [n|].
      - unfold add_exclusion_regex. destruct (re_ok n).
        + cbn [adv p_config]. split; [reflexivity|]. cbn. lia.
        + eexists. reflexivity.
      - eexists. split; [reflexivity|]. apply ar_operand; auto. unfold operand_texts. cbn. tauto. }
    destruct (String.eqb_spec a "--backport") as [->|X4].
    { destruct next as [n|].
      - unfold add_backport. destruct (is_backport n) eqn:B.
        + cbn [adv p_config]. split; [reflexivity|]. cbn. lia.
        + destruct (backport_said_spec n) as (meant & E & SG). eexists. split; [exact E|]. eapply ar_backport; eauto.
          intros K. apply is_backport_iff in K. congruence.
      - eexists. split; [reflexivity|]. apply ar_operand; auto. unfold operand_texts. cbn. tauto. }
    destruct (String.eqb_spec a "--feature") as [->|X5].
    { destruct next as [n|].
      - unfold enable_feature. destruct (is_feature n) eqn:B.
        + cbn [adv p_config]. split; [reflexivity|]. cbn. lia.
        + eexists. split; [reflexivity|]. eapply ar_feature; eauto. intros K. apply is_feature_iff in K. congruence.
      - eexists. split; [reflexivity|]. apply ar_operand; auto. unfold operand_texts. cbn. tauto. }
    split; [reflexivity|lia].
  Qed.
End Arg.

(** ** The whole command line *)
Section Line.
  Variable cpus : Z.
  Variable re_ok : string -> bool.
  Variable excl_file : string -> option (list string).
  Variable cwd : string.
  Variable cfg : string -> cfg_file.
  Variable et : string -> string.

  Notation parse_loop := (parse_loop cpus re_ok excl_file).
  Notation loop_said := (loop_said cpus re_ok excl_file et).
  Notation unread := (unread excl_file).

  Lemma unread_cons : forall a r, unread (a :: r) = unread_one excl_file a (hd_error r) ++ unread r.
  Proof. intros a [|n r]; reflexivity. Qed.

  Lemma loop_cases : forall args s,
    match parse_loop args s with
    | SGo s' => loop_said args s = Ok (map et (unread args))
    | SFail => exists front a back l tn, args = front ++ a :: back /\
        loop_said args s = Ok (map et (unread (front ++ [a])) ++ l) /\ arg_refusal a (hd_error back) tn l /\
        (tn <= List.length (c_targets (p_config s)) + List.length (filter gives_target front))%nat
    | SRaise _ => exists l, loop_said args s = Ok l
    end.
  Proof.
    induction args as [|a r IH]; intros s; cbn [Arguments.parse_loop Messages.loop_said]; [reflexivity|].
    assert (C := arg_cases cpus re_ok excl_file et a (hd_error r) s).
    destruct (parse_arg cpus re_ok excl_file a (hd_error r) s) as [s'| |e].
    - destruct C as [-> L]. cbn [bindr]. specialize (IH s'). destruct (parse_loop r s') as [s''| |e].
      + rewrite IH. cbn [bindr]. rewrite unread_cons, map_app. reflexivity.
      + destruct IH as (front & b & back & l & tn & -> & E & R & T). exists (a :: front), b, back, l, tn.
        split; [reflexivity|]. rewrite E. cbn [bindr]. split; [|split; [exact R|]].
        * cbn [app]. rewrite unread_cons, map_app, app_assoc.
          assert (H : hd_error (front ++ b :: back) = hd_error (front ++ [b])) by (destruct front; reflexivity).
          rewrite H. reflexivity.
        * cbn [filter]. destruct (gives_target a); cbn [List.length]; lia.
      + destruct IH as [l ->]. cbn [bindr]. eauto.
    - destruct C as (l & -> & R). cbn [bindr]. exists [], a, r, l, (List.length (c_targets (p_config s))).
      split; [reflexivity|]. split; [reflexivity|]. split; [exact R|]. lia.
    - destruct C as [l ->]. cbn [bindr]. eauto.
  Qed.

  Lemma named_cons : forall a r, ~ In a ["--config-file"; "-c"] -> no_file_named r -> no_file_named (a :: r).
  Proof. intros a r N [A B]. unfold no_file_named. cbn in *. intuition. Qed.
  Lemma named_inv : forall a r, no_file_named (a :: r) -> no_file_named r.
  Proof. intros a r [A B]. unfold no_file_named. cbn in *. intuition. Qed.

  Lemma preparse_spec : forall args nc ac,
    match preparse cwd args nc ac with
    | PreMissingFile => exists o, In o ["--config-file"; "-c"] /\ comes_last args o
    | PreGo nc' ac' =>
        (nc' = true <-> nc = true \/ In "--no-config-file" args) /\
        ((no_file_named args /\ ac' = ac) \/
         (exists front o n back, In o ["--config-file"; "-c"] /\ args = front ++ o :: n :: back /\ no_file_named (n :: back) /\
            ac' = Some (abspath cwd n)))
    | _ => True
    end.
  Proof.
    induction args as [|a r IH]; intros nc ac; cbn [preparse].
    { split; [cbn; tauto|]. left. split; [|reflexivity]. unfold no_file_named. cbn. auto. }
    destruct (mem a ["--help"; "-h"]); [exact I|]. destruct (mem a ["--version"; "-V"]); [exact I|].
    assert (STEP : forall nc' ac', (a = "--no-config-file" -> nc' = true) -> (a <> "--no-config-file" -> nc' = nc) ->
      (no_file_named r -> (no_file_named (a :: r) /\ ac' = ac) \/
         (exists n back, In a ["--config-file"; "-c"] /\ r = n :: back /\ ac' = Some (abspath cwd n))) ->
      match preparse cwd r nc' ac' with
      | PreMissingFile => exists o, In o ["--config-file"; "-c"] /\ comes_last (a :: r) o
      | PreGo nc'' ac'' =>
          (nc'' = true <-> nc = true \/ In "--no-config-file" (a :: r)) /\
          ((no_file_named (a :: r) /\ ac'' = ac) \/
           (exists front o n back, In o ["--config-file"; "-c"] /\ a :: r = front ++ o :: n :: back /\ no_file_named (n :: back) /\
              ac'' = Some (abspath cwd n)))
      | _ => True
      end).
    { intros nc' ac' N1 N2 NF. specialize (IH nc' ac'). destruct (preparse cwd r nc' ac') as [| | |x y]; auto.
      - destruct IH as (o & O & front & ->). exists o. split; [exact O|]. exists (a :: front). reflexivity.
      - destruct IH as [A B]. split.
        + rewrite A. cbn [In]. destruct (string_dec a "--no-config-file") as [Q|Q].
          * rewrite (N1 Q). intuition.
          * rewrite (N2 Q). intuition.
        + destruct B as [[K ->]|(front & o & n & back & O & -> & K & ->)].
          * destruct (NF K) as [[K1 K2]|(n & back & O & -> & ->)]; [left; auto|right].
            exists [], a, n, back. auto.
          * right. exists (a :: front), o, n, back. auto. }
    destruct (String.eqb_spec a "--no-config-file") as [->|NC].
    { apply STEP; [congruence|congruence|]. intros K. left. split; [apply named_cons; auto; cbn; intuition discriminate|reflexivity]. }
    destruct (mem a ["--config-file"; "-c"]) eqn:M.
    - apply mem_In in M. destruct r as [|f r'].
      + exists a. split; [exact M|]. exists []. reflexivity.
      + apply STEP; [congruence|congruence|]. intros K. right. exists f, r'. auto.
    - apply STEP; [congruence|congruence|]. intros K. left. split; [|reflexivity]. apply named_cons; auto.
      intros I. apply mem_In in I. congruence.
  Qed.

  Lemma gives_in : forall args a ps v, In a args -> gives [a] ps v -> gives args ps v.
  Proof.
    intros args a ps v I (p & rest & P & Q & N & R). exists p, rest. repeat split; auto. destruct Q as [<-|[]]; exact I.
  Qed.

  Lemma gives_target_true : forall a v, gives [a] ["-t="; "--target="] v -> gives_target a = true.
  Proof.
    intros a v (p & rest & P & [->|[]] & N & R). unfold gives_target. cbn in P. destruct P as [<-|[<-|[]]]; reflexivity.
  Qed.

  Lemma follows_at : forall args front a back n, args = front ++ a :: back -> hd_error back = Some n -> follows args a n.
  Proof. intros args front a [|m back] n -> H; cbn in H; [discriminate|]. injection H as ->. exists front, back. reflexivity. Qed.

  Lemma refusal_of_arg : forall det args c c' front a back l tn ts, args = front ++ a :: back ->
    arg_refusal a (hd_error back) tn l ->
    (tn <= List.length ts + List.length (filter gives_target front))%nat ->
    start_targets cpus re_ok cwd cfg det args c ts -> refusal cpus re_ok cwd cfg et det args c c' l.
  Proof.
    intros det args c c' front a back l tn ts E R T S.
    assert (IA : In a args) by (rewrite E; apply in_or_app; right; left; reflexivity).
    destruct R as [t N O|v G N|v G N|v G N|v n G N L|n O N K|n meant O N K M|n O N K].
    - apply (rf_operand _ _ _ _ _ _ _ _ _ a t); auto. exists front. rewrite E. destruct back; [reflexivity|discriminate].
    - apply rf_target; auto. eapply gives_in; eauto.
    - eapply rf_third; [eapply gives_in; eauto|exact S|]. rewrite E, filter_app, app_length. cbn [filter].
      rewrite (gives_target_true _ _ G). cbn [List.length]. lia.
    - apply rf_number; auto. eapply gives_in; eauto.
    - eapply rf_positive; eauto. eapply gives_in; eauto.
    - eapply rf_format; eauto. eapply follows_at; eauto.
    - eapply rf_backport; eauto. subst a. eapply follows_at; eauto.
    - eapply rf_feature; eauto. subst a. eapply follows_at; eauto.
  Qed.

  Lemma in_use_named : forall det args front o n back f, In o ["--config-file"; "-c"] -> args = front ++ o :: n :: back ->
    no_file_named (n :: back) -> in_use cwd det args f -> f = abspath cwd n.
  Proof.
    intros det args front o n back f O E N U. destruct U as [front' o' n' back' O' E' N'|f D N' C].
    - rewrite E in E'. clear E. assert (H : n = n').
      { revert front' E'. induction front as [|x front IH]; intros [|x' front'] E'; cbn in E'.
        - injection E' as _ <- _. reflexivity.
        - exfalso. injection E' as _ E'. destruct N as [N1 N2]. cbn [In] in N1, N2.
          destruct O' as [<-|[<-|[]]]; [apply N1|apply N2].
          + change (In "--config-file" (n :: back)). rewrite E'. apply in_or_app. right. left. reflexivity.
          + change (In "-c" (n :: back)). rewrite E'. apply in_or_app. right. left. reflexivity.
        - exfalso. injection E' as _ E'. destruct N' as [N1 N2].
          destruct O as [<-|[<-|[]]]; [apply N1|apply N2]; rewrite <- E'; apply in_or_app; right; left; reflexivity.
        - injection E' as _ E'. exact (IH _ E'). }
      rewrite H. reflexivity.
    - exfalso. destruct N' as [N1 N2]. destruct O as [<-|[<-|[]]]; [apply N1|apply N2]; rewrite E; apply in_or_app; right; left; reflexivity.
  Qed.

  Notation parse := (parse cpus re_ok excl_file cwd cfg).
  Notation parse_said := (parse_said cpus re_ok excl_file cwd cfg et).

  Lemma finish_cases : forall args note s,
    match finish args note s with
    | (c', OCode k) => k = 1 /\ (
        (finish_said s = ["Showing violations requires target(s) to be specified!"] /\ c_only_show_violations c' = true /\ c_targets c' = []) \/
        (finish_said s = ["Cannot use quiet and verbose modes together!"] /\ c_quiet c' = true /\ 0 < c_verbose c' /\
         c_only_show_violations c' = false))
    | (_, OPaths _ _ _) => finish_said s = []
    | _ => False
    end.
  Proof.
    intros args note s. unfold finish, finish_said. cbv zeta.
    set (c := match p_fmt s with Some f => set_format f (p_config s) | None => p_config s end). clearbody c.
    destruct (c_only_show_violations c && (List.length (c_targets c) =? 0)%nat) eqn:A.
    { apply andb_prop in A as [A1 A2]. split; [reflexivity|]. left. repeat split; auto. apply Nat.eqb_eq in A2. destruct (c_targets c); [reflexivity|discriminate]. }
    set (c2 := if c_only_show_violations c && (c_verbose c <? 2) then w_verbose 2 c else c). clearbody c2.
    destruct (c_quiet c2 && (0 <? c_verbose c2) && negb (c_only_show_violations c2)) eqn:B; [|reflexivity].
    apply andb_prop in B as [B B3]. apply andb_prop in B as [B1 B2]. split; [reflexivity|]. right. repeat split; auto; [lia|].
    destruct (c_only_show_violations c2); [discriminate|reflexivity].
  Qed.

  (** Everything [parse] prints, by outcome. *)
  Lemma parse_cases : forall det args c,
    match parse det args c with
    | Ok (c', OCode k) => k = 1 /\ exists d front back why, det = Ok d /\ args = front ++ back /\
        parse_said det args c = Ok (map et (unread front) ++ why) /\ refusal cpus re_ok cwd cfg et d args c c' why
    | Ok (_, OPaths _ _ _) => parse_said det args c = Ok (map et (unread args))
    | Ok (_, OUsage _ _) => parse_said det args c = Ok []
    | Err (SystemExit _) => parse_said det args c = Ok [version_text] \/ exists l, parse_said det args c = Ok l
    | Err _ => exists l, parse_said det args c = Ok l
    end.
  Proof.
    intros det args c. unfold Arguments.parse, Messages.parse_said. destruct args as [|a0 r0]; [reflexivity|].
    remember (a0 :: r0) as args eqn:EA. clear EA a0 r0.
    destruct det as [det|e]; [|destruct e; eauto].
    assert (PS := preparse_spec args false None). destruct (preparse cwd args false None) as [| | |nc ac]; auto.
    { split; [reflexivity|]. destruct PS as (o & O & L). exists det, [], args. eexists. split; [reflexivity|]. split; [reflexivity|].
      split; [reflexivity|]. eapply rf_operand; [exact L|]. unfold operand_texts. cbn in O |- *. destruct O as [<-|[<-|[]]]; tauto. }
    destruct PS as [NC AC]. assert (NC' : nc = true <-> In "--no-config-file" args) by (rewrite NC; intuition discriminate).
    (* what happens once the configuration to start from is known *)
    assert (GO : forall det' c0 note, start_targets cpus re_ok cwd cfg det' args c (c_targets c0) ->
      match (match parse_loop args (mkP c0 0 false None) with
             | SGo s => Ok (finish args note s) | SFail => Ok (c0, OCode 1) | SRaise e => Err e end) with
      | Ok (c', OCode k) => k = 1 /\ exists d front back why, Ok det' = @Ok (option string) d /\ args = front ++ back /\
          (letr x := loop_said args (mkP c0 0 false None) in
           match parse_loop args (mkP c0 0 false None) with SGo s' => Ok (x ++ finish_said s') | _ => Ok x end) =
          Ok (map et (unread front) ++ why) /\ refusal cpus re_ok cwd cfg et d args c c' why
      | Ok (_, OPaths _ _ _) =>
          (letr x := loop_said args (mkP c0 0 false None) in
           match parse_loop args (mkP c0 0 false None) with SGo s' => Ok (x ++ finish_said s') | _ => Ok x end) = Ok (map et (unread args))
      | Ok (_, OUsage _ _) => (letr x := loop_said args (mkP c0 0 false None) in
           match parse_loop args (mkP c0 0 false None) with SGo s' => Ok (x ++ finish_said s') | _ => Ok x end) = Ok []
      | Err (SystemExit _) => (letr x := loop_said args (mkP c0 0 false None) in
           match parse_loop args (mkP c0 0 false None) with SGo s' => Ok (x ++ finish_said s') | _ => Ok x end) = Ok [version_text] \/
           exists l, (letr x := loop_said args (mkP c0 0 false None) in
           match parse_loop args (mkP c0 0 false None) with SGo s' => Ok (x ++ finish_said s') | _ => Ok x end) = Ok l
      | Err _ => exists l, (letr x := loop_said args (mkP c0 0 false None) in
           match parse_loop args (mkP c0 0 false None) with SGo s' => Ok (x ++ finish_said s') | _ => Ok x end) = Ok l
      end).
    { intros det' c0 note ST. assert (L := loop_cases args (mkP c0 0 false None)).
      destruct (parse_loop args (mkP c0 0 false None)) as [s| |e].
      - rewrite L. cbn [bindr]. assert (F := finish_cases args note s). destruct (finish args note s) as [c' [k f|k|ps v pr]]; [destruct F| |].
        + destruct F as [-> [(F & V & T)|(F & Q & B & V)]]; (split; [reflexivity|]); exists det', args, []; eexists;
            (split; [reflexivity|]); (split; [symmetry; apply app_nil_r|]); (split; [rewrite F; reflexivity|]); constructor; auto.
        + rewrite F, app_nil_r. reflexivity.
      - destruct L as (front & a & back & l & tn & E & LS & R & T). split; [reflexivity|]. exists det', (front ++ [a]), back, l.
        split; [reflexivity|]. split; [rewrite E, <- app_assoc; reflexivity|]. rewrite LS. cbn [bindr]. split; [reflexivity|].
        eapply refusal_of_arg; eauto.
      - destruct L as [l ->]. cbn [bindr]. destruct e; eauto. }
    destruct AC as [[NN ->]|(front & o & n & back & O & E & NN & ->)].
    - assert (NONE : (if nc then None else det) = None -> forall f, ~ in_use cwd det args f).
      { intros D f U. destruct U as [fr o n bk O E N|f D' N C].
        - destruct NN as [N1 N2]. destruct O as [<-|[<-|[]]]; [apply N1|apply N2]; rewrite E; apply in_or_app; right; left; reflexivity.
        - destruct nc; [apply C, NC'; reflexivity|congruence]. }
      assert (HERE : forall f, (if nc then None else det) = Some f -> in_use cwd det args f).
      { intros f D. destruct nc; [discriminate|]. apply iu_found; auto. intros I. apply NC' in I. discriminate. }
      replace (match nc with true => _ | false => _ end) with
        (match (if nc then None else det) with
         | None => match parse_loop args (mkP c 0 false None) with
                   | SGo s => Ok (finish args None s) | SFail => Ok (c, OCode 1) | SRaise e => Err e end
         | Some f => match parse_file cpus re_ok (cfg f) with
                     | None => Ok (c, OCode 1)
                     | Some c' => match parse_loop args (mkP (override_from c' c) 0 false None) with
                                  | SGo s => Ok (finish args (Some f) s) | SFail => Ok (override_from c' c, OCode 1) | SRaise e => Err e end
                     end
         end)
        by (destruct nc; [reflexivity|]; destruct det as [f|]; [|reflexivity]; destruct (parse_file cpus re_ok (cfg f)); reflexivity).
      replace (match nc with true => _ | false => _ end) with
        (match (if nc then None else det) with
         | None => letr x := loop_said args (mkP c 0 false None) in
                   match parse_loop args (mkP c 0 false None) with SGo s' => Ok (x ++ finish_said s') | _ => Ok x end
         | Some f => match file_told cpus re_ok cfg et f with
                     | inr l => Ok l
                     | inl c' => letr x := loop_said args (mkP (override_from c' c) 0 false None) in
                        match parse_loop args (mkP (override_from c' c) 0 false None) with SGo s' => Ok (x ++ finish_said s') | _ => Ok x end
                     end
         end)
        by (destruct nc; [reflexivity|]; destruct det as [f|]; [|reflexivity]; destruct (file_told cpus re_ok cfg et f); reflexivity).
      destruct (if nc then None else det) as [f|].
      + specialize (HERE f eq_refl). assert (FA := file_agree cpus re_ok et cfg f). destruct (parse_file cpus re_ok (cfg f)) as [c'|] eqn:PF.
        * rewrite FA. apply (GO det). left. exists f, c'. split; [exact HERE|]. split; [exact PF|].
          unfold override_from. destruct (c_format c'); reflexivity.
        * destruct FA as (l & -> & FF). split; [reflexivity|]. exists det, [], args, l. repeat split. eapply rf_file; eauto.
      + apply (GO det). right. split; [apply NONE; reflexivity|reflexivity].
    - destruct nc.
      { split; [reflexivity|]. exists det, [], args. eexists. repeat split. apply rf_both; [apply NC'; reflexivity|].
        intros [N1 N2]. destruct O as [<-|[<-|[]]]; [apply N1|apply N2]; rewrite E; apply in_or_app; right; left; reflexivity. }
      set (f := abspath cwd n) in *.
      assert (HERE : in_use cwd det args f) by (eapply iu_named; eauto).
      assert (FA := file_agree cpus re_ok et cfg f). destruct (parse_file cpus re_ok (cfg f)) as [c'|] eqn:PF.
      + rewrite FA. cbn [tbind]. apply (GO det). left. exists f, c'. split; [exact HERE|]. split; [exact PF|].
        unfold override_from. destruct (c_format c'); reflexivity.
      + destruct FA as (l & -> & FF). cbn [tbind]. split; [reflexivity|]. exists det, [], args, l. repeat split. eapply rf_file; eauto.
  Qed.
End Line.

(** ** Runs that fail are not silent *)
Lemma print_lines_cons : forall a l, print_lines (a :: l) <> "".
Proof. intros a l H. apply (f_equal String.length) in H. unfold print_lines in H. cbn [map sconcat] in H. rewrite !length_app_s in H. cbn in H. lia. Qed.
Lemma print_lines_nonempty : forall l, l <> [] -> print_lines l <> "".
Proof. intros [|a l] H; [congruence|apply print_lines_cons]. Qed.
Lemma sapp_nonempty_r : forall a b, b <> "" -> a +++ b <> "".
Proof. intros a b H E. apply H. destruct a; [exact E|discriminate]. Qed.
Lemma sapp_nonempty_l : forall a b, a <> "" -> a +++ b <> "".
Proof. intros a b H E. apply H. destruct a; [reflexivity|discriminate]. Qed.

Lemma refusal_nonempty : forall cpus re_ok cwd cfg et d args c c' l, refusal cpus re_ok cwd cfg et d args c c' l -> l <> [].
Proof. intros cpus re_ok cwd cfg et d args c c' l R. destruct R as [| |f l U F| | | | | | | | |]; try discriminate. destruct F; discriminate. Qed.

Lemma piece_ok : forall prog cpus p, exists s, piece_text prog cpus p = Ok s.
Proof.
  intros prog cpus [s| | | | | | | |]; try (eexists; reflexivity).
Qed.
Lemma pieces_ok : forall prog cpus l, exists s, pieces_text prog cpus l = Ok s.
Proof.
  intros prog cpus l. induction l as [|p l [s IH]]; cbn [pieces_text]; [eauto|]. destruct (piece_ok prog cpus p) as [x ->].
  rewrite IH. cbn. eauto.
Qed.
Lemma usage_texts_ok : forall prog cpus full us, exists l, usage_texts prog cpus full us = Ok l /\
  (forall c ps, In (c, ps) us -> printed_when full c = true -> l <> []).
Proof.
  intros prog cpus full us. induction us as [|[c ps] us (l & IH & N)]; cbn [usage_texts]; [exists []; split; [reflexivity|intros ? ? []]|].
  destruct (printed_when full c) eqn:P.
  - destruct (pieces_ok prog cpus ps) as [x ->]. cbn [bindr]. rewrite IH. cbn. eexists. split; [reflexivity|discriminate].
  - exists l. split; [exact IH|]. intros c' ps' [E|I] Q; [injection E as <- <-; congruence|eauto].
Qed.
Lemma usage_ok : forall prog cpus full, exists l, print_usage prog cpus full = Ok l /\ l <> [].
Proof.
  intros prog cpus full. destruct (usage_texts_ok prog cpus full usage_prints) as (l & E & N). exists l. split; [exact E|].
  apply (N Always [Txt "Vermin "; HVersion]); [left; reflexivity|reflexivity].
Qed.

Lemma report_tells : forall c v s l k, report c v s = Ok (l, k) -> k <> 0 -> c_quiet c = false -> l <> [].
Proof.
  intros c v s l k H K Q. unfold report in H. cbv zeta in H.
  repeat match type of H with bindr ?r _ = _ => destruct r eqn:?; cbn [bindr] in H; [|discriminate] end.
  destruct (targets_failed c (reqs_of (m_mins s))).
  - destruct (fmt_eqb (c_format c) FParsable) eqn:P.
    + cbn [bindr] in H. injection H as <- <-. intros E.
      match goal with A : Ok [_] = Ok ?l |- _ => injection A as A; rewrite <- A in E end.
      repeat (apply app_eq_nil in E as [? E]). discriminate.
    + match type of H with bindr ?r _ = _ => destruct r eqn:L7; cbn [bindr] in H; [|discriminate] end.
      match type of L7 with bindr ?r _ = _ => destruct r; cbn [bindr] in L7; [|discriminate] end.
      injection L7 as <-. injection H as <- <-. unfold nprint in *. rewrite Q. intros E.
      repeat (apply app_eq_nil in E as [? E]). discriminate.
  - injection H as _ <-. congruence.
Qed.

Lemma run_files_tells : forall w c v files out k, run_files w c v files = (out, Ok k) -> k <> 0 -> c_quiet c = false -> out <> "".
Proof.
  intros w c v files out k H K Q. unfold run_files in H. cbv zeta in H. destruct files as [|f files].
  - injection H as <- <-. unfold nprint. rewrite Q. apply print_lines_cons.
  - destruct (process _ _ _ _ _ _ _) as [o [s|e]].
    + destruct (report c v s) as [[l k']|e] eqn:R; [|discriminate]. injection H as <- <-.
      apply sapp_nonempty_r, sapp_nonempty_r, print_lines_nonempty. eapply report_tells; eauto.
    + destruct e; try discriminate. injection H as <- <-. apply sapp_nonempty_r, sapp_nonempty_r.
      unfold nprint. rewrite Q. apply print_lines_cons.
Qed.

Lemma loop_raise : forall cpus re_ok ef args s e, parse_loop cpus re_ok ef args s = SRaise e -> forall n, e <> SystemExit n.
Proof.
  intros cpus re_ok ef. induction args as [|a r IH]; intros s e H; cbn in H; [discriminate|].
  destruct (parse_arg cpus re_ok ef a (hd_error r) s) as [s'| |e'] eqn:P; [eauto|discriminate|].
  injection H as ->. clear - P. unfold parse_arg in P. unfold adv in P.
  repeat match type of P with
         | (if ?b then _ else _) = _ => destruct b
         | match ?x with _ => _ end = _ => destruct x eqn:?
         end; try discriminate.
  injection P as <-. unfold add_exclusion_regex in *. destruct (re_ok s0); [discriminate|].
  match goal with A : Err _ = Err _ |- _ => injection A as <- end. discriminate.
Qed.

Lemma parse_exit : forall cpus re_ok ef cwd cfg det args c n, (forall n, det <> Err (SystemExit n)) ->
  parse cpus re_ok ef cwd cfg det args c = Err (SystemExit n) -> n = 0.
Proof.
  intros cpus re_ok ef cwd cfg det args c n D H. unfold parse in H. destruct args as [|a r]; [discriminate|].
  destruct det as [det|e]; [|injection H as ->; exfalso; eapply D; reflexivity].
  destruct (preparse cwd (a :: r) false None) as [| | |nc ac]; [discriminate|injection H as <-; reflexivity|discriminate|].
  repeat match type of H with match ?x with _ => _ end = _ => destruct x eqn:?; try discriminate end;
    injection H as ->; exfalso; eapply loop_raise; eauto.
Qed.

(** The outcome by cases, with the parts as variables. *)
Definition whole_of (w : world) (prog : string) (fuel : nat) (P : res (config * parse_out)) (said : res (list string)) : option outcome :=
  match (letr l := said in
         match P with Ok (_, OUsage _ full) => letr u := print_usage prog (w_cpus w) full in Ok (l ++ u) | _ => Ok l end) with
  | Err e => Some ("", Err e)
  | Ok l => option_map (fun o => (print_lines l +++ fst o, snd o))
      (match P with
       | Err (SystemExit n) => Some ("", Ok n)
       | Err x => Some ("", Err x)
       | Ok (c, OUsage code _) => Some ("", Ok code)
       | Ok (c, OCode code) => Some ("", Ok code)
       | Ok (c, OPaths paths versions printed) =>
           let head := printed ++ (if fmt_eqb (c_format c) FParsable then [] else vprint c "Detecting python files..") in
           match found_files w c fuel paths with
           | None => None
           | Some (Err x) => Some (print_lines head, Err x)
           | Some (Ok files) => let (out, r) := run_files w c versions files in Some (print_lines head +++ out, r)
           end
       end)
  end.
Lemma whole_is : forall w prog et fuel args,
  whole_main w prog et fuel args =
  whole_of w prog fuel
    (parse (w_cpus w) (w_re_ok w) (w_excl_file w) (w_cwd w) (w_cfg_file w) (w_detected w) args (default_config (w_cpus w)))
    (parse_said (w_cpus w) (w_re_ok w) (w_excl_file w) (w_cwd w) (w_cfg_file w) et (w_detected w) args (default_config (w_cpus w))).
Proof. reflexivity. Qed.

Lemma whole_of_tells : forall w prog fuel P said out k,
  whole_of w prog fuel P said = Some (out, Ok k) -> k <> 0 ->
  (forall n, P = Err (SystemExit n) -> n = 0) ->
  (forall c u, P = Ok (c, OCode u) -> exists l, said = Ok l /\ l <> []) ->
  out <> "" \/ exists c ps v pr, P = Ok (c, OPaths ps v pr) /\ c_quiet c = true.
Proof.
  intros w prog fuel P said out k H K X NE. unfold whole_of in H.
  destruct said as [l|e]; cbn [bindr] in H; [|discriminate].
  destruct P as [[c [u full|u|ps v pr]]|e].
  - destruct (usage_ok prog (w_cpus w) full) as (us & E & N). rewrite E in H. cbn [bindr option_map fst snd] in H.
    injection H as <- _. left. apply sapp_nonempty_l, print_lines_nonempty. intros Q. apply app_eq_nil in Q as [_ Q]. congruence.
  - destruct (NE c u eq_refl) as (l' & E & N). injection E as <-. cbn [option_map fst snd] in H. injection H as <- _. left.
    apply sapp_nonempty_l, print_lines_nonempty, N.
  - destruct (c_quiet c) eqn:Q; [right; eauto 8|left]. cbv zeta in H.
    destruct (found_files w c fuel ps) as [[files|e]|]; cbn [option_map fst snd] in H; try discriminate.
    destruct (run_files w c v files) as [o r] eqn:R. cbn [option_map fst snd] in H. injection H as <- ->.
    apply sapp_nonempty_r, sapp_nonempty_r. eapply run_files_tells; eauto.
  - exfalso. destruct e; cbn [option_map fst snd] in H; try discriminate.
    injection H as _ <-. apply K, X. reflexivity.
Qed.

Lemma whole_tells : forall w prog et fuel args out k, (forall n, w_detected w <> Err (SystemExit n)) ->
  whole_main w prog et fuel args = Some (out, Ok k) -> k <> 0 ->
  out <> "" \/ exists c ps v pr,
    parse (w_cpus w) (w_re_ok w) (w_excl_file w) (w_cwd w) (w_cfg_file w) (w_detected w) args (default_config (w_cpus w)) =
      Ok (c, OPaths ps v pr) /\ c_quiet c = true.
Proof.
  intros w prog et fuel args out k D H K. rewrite whole_is in H. eapply whole_of_tells; [exact H|exact K| |].
  - intros n E. eapply parse_exit; eauto.
  - intros c u E. assert (C := parse_cases (w_cpus w) (w_re_ok w) (w_excl_file w) (w_cwd w) (w_cfg_file w) et (w_detected w) args (default_config (w_cpus w))).
    rewrite E in C. destruct C as [_ (d & fr & bk & why & _ & _ & S & R)]. rewrite S. eexists. split; [reflexivity|].
    intros Q. apply app_eq_nil in Q as [_ Q]. eapply refusal_nonempty; eauto.
Qed.
