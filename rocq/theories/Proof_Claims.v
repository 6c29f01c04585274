(** Runs without the shape of the tree, and what follows for the detected names. Lemmas for C39, C42,
    C43, C59. *)
From Verif Require Import PyBase PyLemmas Utility RulesData Rules Config Formats Paths AstKinds Ast State Visitor
  Spec_Base Spec_Visitor Spec_Places Proof_Shapes Proof_Runs Proof_Handlers Proof_Brackets Proof_Tour.

Definition under (T : pyval -> Prop) (x : pyval) : Prop := exists n, T n /\ below x n.

Section Claims.
  Variable e : env.
  Notation cfg := (e_cfg e).
  Notation runs := (runs e).

  Inductive flat (U : pyval -> Prop) : st -> st -> Prop :=
  | f_nil s : flat U s s
  | f_cat s1 s2 s3 : flat U s1 s2 -> flat U s2 s3 -> flat U s1 s3
  | f_out o s : flat U s (u_out o s)
  | f_lc n x l c s : U n -> says_st s n x l -> flat U s (u_lcs ((EStr x, (l, c)) :: s_lcs s) s)
  | f_lc_kw f k l c s : flat U s (u_lcs ((EKw f k, (l, c)) :: s_lcs s) s)
  | f_line l s : flat U s (u_line l s)
  | f_depth d s : flat U s (u_depth d s)
  | f_flag f s : flat U s (raise_flag f s)
  | f_module n m s : U n -> module_use n m -> ~ In m (s_user_defs s) -> is_excluded cfg m = false ->
      flat U s (u_modules (s_modules s ++ [m]) s)
  | f_member n m s : U n -> member_used n m s -> ~ In m (s_user_defs s) -> is_excluded cfg m = false ->
      has_key m mod_mem_reqs_x = true -> flat U s (u_members (s_members s ++ [m]) s)
  | f_kwarg g k s : is_excluded_kwarg cfg (kw_function s g) (kw_text k) = false ->
      flat U s (u_kwargs (s_kwargs s ++ [(kw_function s g, k)]) s)
  | f_ufd n d s : U n -> decorated n -> is_excluded cfg d = false -> has_key d decorator_user_functions = true ->
      flat U s (u_ufds (s_ufds s ++ [d]) s)
  | f_strftime n d s : U n -> strftime_use n d -> flat U s (u_strftimes (s_strftimes s ++ [d]) s)
  | f_bytesdir n b d s : U n -> constant (VBytes b) n -> directive_in (const_text (VBytes b)) d ->
      flat U s (u_bytesdirs (s_bytesdirs s ++ [d]) s)
  | f_typecode n d s : U n -> typecode_use (ali_st s) n d -> flat U s (u_typecodes (s_typecodes s ++ [d]) s)
  | f_ceh n v s : U n -> handler_use (imp_st s) (ali_st s) n v -> is_excluded_ceh cfg (const_text v) = false ->
      flat U s (u_cehs (s_cehs s ++ [v]) s)
  | f_cenc n v s : U n -> encoding_use (imp_st s) (ali_st s) n v -> is_excluded_ce cfg (const_text v) = false ->
      flat U s (u_cencs (s_cencs s ++ [v]) s)
  | f_import_mem_mod n p x s : U n -> imports_from n p x ->
      flat U s (u_import_mem_mod (dict_set x p (s_import_mem_mod s)) s)
  | f_name_res n a b s : U n -> assigns n a -> flat U s (u_name_res (dict_set a b (s_name_res s)) s)
  | f_name_res_type x s : flat U s (u_name_res_type x s)
  | f_module_as_name n a m s : U n -> aliases n a m -> flat U s (u_module_as_name (dict_set a m (s_module_as_name s)) s)
  | f_user_defs x s : (forall y, In y x -> In y (s_user_defs s) \/ exists n, U n /\ defines n y) ->
      flat U s (u_user_defs x s)
  | f_await x s : flat U s (u_seen_await x s)
  | f_yield x s : flat U s (u_seen_yield x s)
  | f_for x s : flat U s (u_seen_for x s)
  | f_while x s : flat U s (u_seen_while x s)
  | f_frames x s : flat U s (u_try_finally x s)
  | f_ellipsis n s : U n -> isa KSubscript n ->
      flat U s (u_ellipsis (s_ellipsis s ++ slice_ellipses (attr "slice" n)) s)
  | f_fns x s : flat U s (u_fns x s).

  Lemma flat_mono (U U' : pyval -> Prop) s s' : (forall x, U x -> U' x) -> flat U s s' -> flat U' s s'.
  Proof.
    intros M F. induction F; try solve [econstructor; eauto].
    apply f_user_defs. intros y I. destruct (H y I) as [|(n & A & B)]; [auto|]. right. eauto.
  Qed.

  Lemma under_self (T : pyval -> Prop) n : T n -> is_node n = true -> under T n.
  Proof. intros H N. exists n. split; [exact H|apply below_here, N]. Qed.

  Lemma under_up (T T' : pyval -> Prop) n : T n -> (forall m, T' m -> below m n) -> forall x, under T' x -> under T x.
  Proof. intros H B x (m & I & X). exists n. split; [exact H|]. exact (below_trans _ _ _ X (B _ I)). Qed.

  Lemma under_sub (T T' : pyval -> Prop) : (forall m, T' m -> T m) -> forall x, under T' x -> under T x.
  Proof. intros M x (m & I & X). exists m. auto. Qed.

  Lemma module_use_node n m : module_use n m -> is_node n = true.
  Proof.
    intros [[K _]|[[K _]|[(p & x & [K _] & _)|[K _]]]]; exact (isa_node _ _ K).
  Qed.
  Lemma member_use_node n m s : member_used n m s -> is_node n = true.
  Proof.
    intros [[[K _]|[(p & x & [K _] & _)|[[K _]|[[[K|K] _]|[K _]]]]]|[K _]]; exact (isa_node _ _ K).
  Qed.
  Lemma assigns_node n a : assigns n a -> is_node n = true.
  Proof. intros [[K _]|[[K|[K|[K|K]]] _]]; exact (isa_node _ _ K). Qed.

  Lemma defines_node n x : defines n x -> is_node n = true.
  Proof.
    unfold defines. intros D.
    repeat match type of D with _ \/ _ => destruct D as [D|D] end; destruct D as [K _];
      repeat match type of K with _ \/ _ => destruct K as [K|K] end; exact (isa_node _ _ K).
  Qed.
  Lemma aliases_node n a m : aliases n a m -> is_node n = true.
  Proof. intros (i & _ & _ & [[K _]|[K _]]); exact (isa_node _ _ K). Qed.
  Lemma typecode_node ali n d : typecode_use ali n d -> is_node n = true.
  Proof. intros [K _]. exact (isa_node _ _ K). Qed.
  Lemma handler_node imp ali n c : handler_use imp ali n c -> is_node n = true.
  Proof. intros (f & i & [K _] & _). exact (isa_node _ _ K). Qed.
  Lemma encoding_node imp ali n c : encoding_use imp ali n c -> is_node n = true.
  Proof. intros (f & i & [K _] & _). exact (isa_node _ _ K). Qed.
  Lemma strftime_node n d : strftime_use n d -> is_node n = true.
  Proof. intros [K _]. exact (isa_node _ _ K). Qed.
  Lemma constant_node n c : constant c n -> is_node n = true.
  Proof. intros [K _]. exact (isa_node _ _ K). Qed.
  Lemma decorated_node n : decorated n -> is_node n = true.
  Proof. intros [[K|K] _]; exact (isa_node _ _ K). Qed.

  Lemma says_node imp ali asg n x l : says imp ali asg n x l -> is_node n = true.
  Proof.
    intros [[_ D]|[[[K|K] _]|[[K|K] _]]]; try exact (isa_node _ _ K).
    destruct D as [D|[(p & K & _)|[[K _]|[[K _]|[D|[(b & D & _)|[D|[D|D]]]]]]]]; try exact (isa_node _ _ K);
      eauto using module_use_node, strftime_node, constant_node, typecode_node, handler_node, encoding_node.
  Qed.
  Lemma says_st_node s n x l : says_st s n x l -> is_node n = true.
  Proof. apply says_node. Qed.

  (** Names are only forgotten at the end of the scope they were defined in. *)
  Lemma set_add_inv x y (l : list string) : In y (set_add x l) -> In y l \/ y = x.
  Proof. unfold set_add. destruct (mem x l); [auto|]. rewrite in_app_iff. intros [I|[<-|[]]]; auto. Qed.
  Lemma runs_defs T s s' : runs T s s' -> incl (s_user_defs s) (s_user_defs s').
  Proof.
    intros R. induction R; unfold push_frame, pop_frame, raise_flag in *; cbn in *;
      eauto using incl_refl, incl_tran, set_add_incl.
  Qed.

  Lemma runs_flat T s s' : runs T s s' -> flat (under T) s s'.
  Proof.
    intros R. induction R; unfold push_frame, pop_frame in *;
      try solve [ econstructor; eauto using under_self, module_use_node, member_use_node, assigns_node, aliases_node, typecode_node, handler_node, encoding_node, strftime_node, constant_node, decorated_node, says_st_node ].
    - (* depth *) eapply f_cat; [apply f_depth|]. eapply f_cat; [exact IHR|apply f_depth].
    - (* await *) eapply f_cat; [|apply f_flag]. exact (flat_mono _ _ _ _ (under_sub _ _ H) IHR).
    - eapply f_cat; [|apply f_flag]. exact (flat_mono _ _ _ _ (under_sub _ _ H) IHR).
    - destruct H0 as [K H0]. eapply f_import_mem_mod; [apply under_self; [exact H|exact (isa_node _ _ K)]|].
      split; [exact K|exact H0].
    - apply f_user_defs. intros y I. destruct (set_add_inv _ _ _ I) as [J| ->]; [auto|]. right.
      exists n. split; [apply under_self; [exact H|exact (defines_node _ _ H0)]|exact H0].
    - eapply f_cat; [exact IHR|apply f_user_defs]. intros y I. left. exact (runs_defs _ _ _ R y I).
    - eapply f_cat; [|apply f_yield]. refine (flat_mono _ _ _ _ (under_up _ _ n H _) IHR).
      intros m. apply inside_below, (isa_node _ _ H0).
    - eapply f_cat; [|eapply f_cat; [apply f_await|apply f_yield]]. refine (flat_mono _ _ _ _ (under_up _ _ n H _) IHR).
      intros m. apply inside_below, (isa_node _ _ H0).
    - eapply f_cat; [|apply f_await]. refine (flat_mono _ _ _ _ (under_up _ _ n H _) IHR).
      intros m. apply inside_below, (isa_node _ _ H0).
    - eapply f_cat; [apply f_for|]. eapply f_cat; [|apply f_for]. refine (flat_mono _ _ _ _ (under_up _ _ n H _) IHR).
      intros m. apply inside_below. destruct H0 as [H0|H0]; exact (isa_node _ _ H0).
    - eapply f_cat; [apply f_while|]. eapply f_cat; [|apply f_while]. refine (flat_mono _ _ _ _ (under_up _ _ n H _) IHR).
      intros m. apply inside_below, (isa_node _ _ H0).
    - eapply f_cat; [apply f_frames|]. eapply f_cat; [|apply f_frames]. refine (flat_mono _ _ _ _ (under_up _ _ n H _) IHR).
      intros m (x & I & O). exact (item_below _ _ _ _ I (own_below _ _ O)).
    - refine (flat_mono _ _ _ _ (under_up _ _ n H _) IHR). intros m. apply own_in_below.
    - eapply f_cat; [apply f_ellipsis; [apply under_self; [exact H|exact (isa_node _ _ H0)]|exact H0]|]. refine (flat_mono _ _ _ _ (under_up _ _ n H _) IHR). intros m. apply own_in_below.
    - eapply f_cat; [apply f_fns|]. eapply f_cat; [|apply f_fns]. refine (flat_mono _ _ _ _ (under_up _ _ n H _) IHR).
      intros m. apply inside_below, (isa_node _ _ H0).
    - eapply f_cat; [|apply f_fns]. refine (flat_mono _ _ _ _ (under_up _ _ n H _) IHR).
      intros m. apply inside_below, (isa_node _ _ H0).
    - refine (flat_mono _ _ _ _ (under_up _ _ n H _) IHR).
      intros m [I|(b & I & O)]; [apply inside_below, I; exact (isa_node _ _ H0)|exact (member_below _ _ _ I O)].
  Qed.

  (** *** Exclusions *)

  Definition allowed (s : st) : Prop :=
    (forall m, In m (s_modules s) -> is_excluded cfg m = false) /\
    (forall m, In m (s_members s) -> is_excluded cfg m = false) /\
    (forall f k, In (f, k) (s_kwargs s) -> is_excluded_kwarg cfg f (kw_text k) = false) /\
    (forall d, In d (s_ufds s) -> is_excluded cfg d = false) /\
    (forall v, In v (s_cehs s) -> is_excluded_ceh cfg (const_text v) = false) /\
    (forall v, In v (s_cencs s) -> is_excluded_ce cfg (const_text v) = false).

  Lemma flat_allowed U s s' : flat U s s' -> allowed s -> allowed s'.
  Proof.
    intros F. induction F; intros A; auto; try match goal with H : has_key _ _ = true |- _ => clear H end;
      unfold allowed, raise_flag in *; cbn in *;
      destruct A as (A1 & A2 & A3 & A4 & A5 & A6); repeat split; auto;
      intros *; rewrite in_app_iff; simpl; intros [I|[I|[]]]; eauto; try (subst; assumption).
    injection I as <- <-. assumption.
  Qed.

  (** *** Uses *)

  Lemma flat_modules U s s' m : flat U s s' -> In m (s_modules s') ->
    In m (s_modules s) \/ exists n, U n /\ module_use n m.
  Proof.
    intros F. induction F; unfold raise_flag in *; cbn; auto.
    - intros I. destruct (IHF2 I) as [I'|]; auto.
    - rewrite in_app_iff. simpl. intros [I|[<-|[]]]; [auto|]. right. eauto.
  Qed.

  Lemma dict_set_keys {A} k (v : A) l x : In x (map fst (dict_set k v l)) -> x = k \/ In x (map fst l).
  Proof.
    induction l as [|[a b] r IH]; simpl; [intros [<-|[]]; auto|]. destruct (String.eqb k a) eqn:E; simpl.
    - apply String.eqb_eq in E as ->. tauto.
    - intros [->|I]; [auto|]. destruct (IH I); auto.
  Qed.

  Lemma flat_keys U s s' a : flat U s s' -> In a (map fst (s_name_res s')) ->
    In a (map fst (s_name_res s)) \/ exists n, U n /\ assigns n a.
  Proof.
    intros F. induction F; unfold raise_flag in *; cbn; auto.
    - intros I. destruct (IHF2 I) as [I'|]; auto.
    - intros I. apply dict_set_keys in I as [->|I]; [|auto]. right. eauto.
  Qed.

  Lemma flat_members U s s' m : flat U s s' -> In m (s_members s') ->
    In m (s_members s) \/ (exists n, U n /\ member_use n m) \/
    (exists n a, U n /\ isa KAttribute n /\ as_str (attr "attr" n) = a /\
       (In a (map fst (s_name_res s)) \/ exists n', U n' /\ assigns n' a)).
  Proof.
    intros F. induction F; unfold raise_flag in *; cbn; auto.
    - intros I. destruct (IHF2 I) as [I'|[X|(n & a & A & B & C & [D|D])]]; auto.
      + right. right. exists n, a. repeat split; auto. destruct (flat_keys _ _ _ _ F1 D); auto.
      + right. right. exists n, a. repeat split; auto.
    - rewrite in_app_iff. simpl. intros [I|[<-|[]]]; [auto|]. right. destruct H0 as [Us|[K D]]; [left; eauto|].
      right. exists n, (as_str (attr "attr" n)). auto.
  Qed.

  Lemma flat_listed U s s' m : flat U s s' -> In m (s_members s') ->
    In m (s_members s) \/ has_key m mod_mem_reqs_x = true.
  Proof.
    set (listed := has_key m mod_mem_reqs_x = true). intros F. induction F; unfold raise_flag in *; cbn; auto.
    - intros I. destruct (IHF2 I) as [I'|]; auto.
    - rewrite in_app_iff. cbn [In]. intros [I|[E|[]]]; [auto|]. right. unfold listed. rewrite <- E. assumption.
  Qed.

  Lemma flat_imported U s s' x p : flat U s s' -> assoc x (s_import_mem_mod s') = Some p ->
    assoc x (s_import_mem_mod s) = Some p \/ exists n, U n /\ imports_from n p x.
  Proof.
    intros F. induction F; unfold raise_flag in *; cbn; auto.
    - intros I. destruct (IHF2 I) as [I'|]; auto.
    - rewrite assoc_dict_set. destruct (String.eqb x x0) eqn:E; [|auto].
      apply String.eqb_eq in E as ->. intros I. injection I as ->. right. eauto.
  Qed.

  Lemma flat_aliased U s s' x p : flat U s s' -> assoc x (s_module_as_name s') = Some p ->
    assoc x (s_module_as_name s) = Some p \/ exists n, U n /\ aliases n x p.
  Proof.
    intros F. induction F; unfold raise_flag in *; cbn; auto.
    - intros I. destruct (IHF2 I) as [I'|]; auto.
    - rewrite assoc_dict_set. destruct (String.eqb x a) eqn:E; [|auto].
      apply String.eqb_eq in E as ->. intros I. injection I as ->. right. eauto.
  Qed.

  (** *** Calls and keywords *)

  Lemma prefix_pop (a b tl : list string) (g : string) : a ++ [g] = b ++ tl -> exists tl', a = removelast b ++ tl'.
  Proof.
    intros E. destruct tl as [|t0 tl] using rev_ind.
    - rewrite app_nil_r in E. subst b. exists []. rewrite removelast_last, app_nil_r. reflexivity.
    - rewrite app_assoc in E. apply app_inj_tail in E as [-> _].
      destruct b as [|x b] using rev_ind; [exists tl; reflexivity|].
      rewrite removelast_last. exists (x :: tl). rewrite <- app_assoc. reflexivity.
  Qed.

  Lemma runs_fns T s s' : runs T s s' -> exists tl, s_fns s = s_fns s' ++ tl.
  Proof.
    intros R. induction R; unfold push_frame, pop_frame, raise_flag in *; cbn in *; auto;
      try (exists []; rewrite app_nil_r; reflexivity).
    - destruct IHR1 as (t1 & ->), IHR2 as (t2 & ->). exists (t2 ++ t1). rewrite app_assoc. reflexivity.
    - destruct IHR as (tl & E). exact (prefix_pop _ _ _ _ E).
    - destruct IHR as (tl & ->). destruct (s_fns s1) as [|x b] using rev_ind; [exists tl; reflexivity|].
      rewrite removelast_last. exists (x :: tl). rewrite <- app_assoc. reflexivity.
  Qed.

  Ltac reach :=
    lazymatch goal with
    | K : isa _ ?n |- forall m, inside ?n m -> below m ?n =>
        let m := fresh in let I := fresh in intros m I; apply inside_below; [exact (isa_node _ _ K)|exact I]
    | K : isa _ ?n \/ isa _ ?n |- forall m, inside ?n m -> below m ?n =>
        let m := fresh in let I := fresh in
        intros m I; apply inside_below; [destruct K as [K|K]; exact (isa_node _ _ K)|exact I]
    | |- forall m, own_in ?n m -> below m ?n => exact (own_in_below n)
    | |- forall m, (exists x, In x (items _ ?n) /\ own x m) -> below m ?n =>
        let m := fresh in let x := fresh in let I := fresh in let O := fresh in
        intros m (x & I & O); exact (item_below _ _ _ _ I (own_below _ _ O))
    | K : isa _ ?n |- forall m, inside ?n m \/ _ -> below m ?n =>
        let m := fresh in let b := fresh in let I := fresh in let O := fresh in
        intros m [I|(b & I & O)]; [apply inside_below, I; exact (isa_node _ _ K)|exact (member_below _ _ _ I O)]
    end.

  (** The claims of a bracket from those of what it holds. *)
  Lemma runs_fns_same T s s' : runs T s s' -> (forall c, under T c -> isa KCall c -> named_call c) -> s_fns s' = s_fns s.
  Proof.
    intros R. induction R; intros N; unfold push_frame, pop_frame, raise_flag in *; cbn in *; auto;
      try (rewrite IHR2, IHR1 by assumption; reflexivity);
      try (apply IHR; intros c U; apply N; first
           [ exact (under_sub _ _ H c U) | refine (under_up _ _ n H _ c U); reach ]).
    - rewrite IHR; [apply removelast_last|]. intros c U. apply N. refine (under_up _ _ n H _ c U). reach.
    - exfalso. apply H1. apply N; [|exact H0]. apply under_self; [exact H|exact (isa_node _ _ H0)].
  Qed.

  Lemma callee_called n g : isa KCall n -> callee n g -> called n g.
  Proof.
    intros K [[F E]|(F & man & E)]; (split; [exact K|]).
    - left. split; [exact F|exact E].
    - right. split; [exact F|]. destruct (isa_kind _ _ F) as (u & p & fs & Ef). rewrite Ef in *.
      unfold dotted_attr in E. destruct (get_attribute_name man (VNode KAttribute u p fs)) as [full|] eqn:G; [|discriminate].
      injection E as <-. destruct (attribute_name_ends KAttribute u p fs man full eq_refl G) as (l & ->).
      apply dotted_ends.
  Qed.

  (** What the names can stand for in a state, and what is added to it. *)
  Definition imp_in (T : pyval -> Prop) (s : st) (x p : string) : Prop :=
    assoc x (s_import_mem_mod s) = Some p \/ exists n, under T n /\ imports_from n p x.
  Definition asg_in (T : pyval -> Prop) (s : st) (a : string) : Prop :=
    In a (map fst (s_name_res s)) \/ exists n, under T n /\ assigns n a.

  Lemma resolves_mono (imp imp' : string -> string -> Prop) (asg asg' : string -> Prop) g f :
    (forall x m, imp x m -> imp' x m) -> (forall x, asg x -> asg' x) -> resolves imp asg g f -> resolves imp' asg' g f.
  Proof.
    intros I A R. destruct R; [apply rs_plain|apply rs_imported|eapply rs_base|eapply rs_assigned|eapply rs_assigned_from]; eauto.
  Qed.

  Lemma split_dot_join g : join "." (split_char "." g) = g.
  Proof.
    unfold split_char. induction g as [|c r IH]; [reflexivity|]. cbn [split_on].
    destruct (Ascii.eqb "." c) eqn:E.
    - apply Ascii.eqb_eq in E as <-. destruct (split_on (Ascii.eqb ".") r) as [|h t] eqn:S.
      + exfalso. destruct r; simpl in S; [discriminate|]. destruct (Ascii.eqb "." a); [discriminate|].
        destruct (split_on (Ascii.eqb ".") r); discriminate.
      + change (join "." ("" :: h :: t)) with ("" +++ "." +++ join "." (h :: t)). rewrite IH. reflexivity.
    - destruct (split_on (Ascii.eqb ".") r) as [|h t] eqn:S; [simpl in IH; subst r; reflexivity|].
      destruct t as [|t0 t]; [simpl in *; subst r; reflexivity|].
      change (join "." (String c h :: t0 :: t)) with (String c (h +++ "." +++ join "." (t0 :: t))).
      change (join "." (h :: t0 :: t)) with (h +++ "." +++ join "." (t0 :: t)) in IH. rewrite IH. reflexivity.
  Qed.

  Definition dot_tail (ps : list string) : string := match ps with [] => "" | _ => "." +++ join "." ps end.

  Lemma join_tail p ps : join "." (p :: ps) = p +++ dot_tail ps.
  Proof. destruct ps; [simpl; rewrite app_nil_s; reflexivity|reflexivity]. Qed.

  Lemma split_dot_eq p0 ps g : split_char "." g = p0 :: ps -> g = p0 +++ dot_tail ps.
  Proof. intros E. rewrite <- (split_dot_join g), E. apply join_tail. Qed.

  Lemma somes_map_some (l : list string) : somes (map Some l) = l.
  Proof. induction l as [|x r IH]; [reflexivity|]. simpl. rewrite IH. reflexivity. Qed.

  Lemma kw_resolves T s g : resolves (imp_in T s) (asg_in T s) g (kw_function s g).
  Proof.
    unfold kw_function. destruct (assoc g (s_import_mem_mod s)) as [m|] eqn:G.
    { apply rs_imported. left. exact G. }
    destruct (split_char "." g) as [|p0 ps] eqn:S; [apply rs_plain|].
    pose proof (split_dot_eq _ _ _ S) as Eg.
    assert (Tl : dot_tail ps = "" \/ exists q, dot_tail ps = "." +++ q).
    { destruct ps; [left; reflexivity|right; eexists; reflexivity]. }
    destruct (assoc p0 (s_import_mem_mod s)) as [m|] eqn:P.
    { destruct ps as [|q ps].
      - simpl in Eg. rewrite app_nil_s in Eg. subst p0. congruence.
      - apply (rs_base _ _ _ p0 (join "." (q :: ps)) m); [exact Eg|left; exact P]. }
    destruct (assoc p0 (s_name_res s)) as [r|] eqn:R; [|apply rs_plain].
    assert (As : asg_in T s p0) by (left; exact (assoc_key _ _ _ R)).
    destruct (assoc r (s_import_mem_mod s)) as [m|] eqn:M.
    - unfold dotted. cbn [somes]. rewrite somes_map_some.
      change (join "." (m :: r :: ps)) with (m +++ "." +++ join "." (r :: ps)). rewrite join_tail.
      apply (rs_assigned_from _ _ _ p0); [exact Eg|exact Tl|exact As|left; exact M].
    - unfold dotted. cbn [somes]. rewrite somes_map_some, join_tail.
      apply (rs_assigned _ _ _ p0); [exact Eg|exact Tl|exact As].
  Qed.

  Definition kw_found (T : pyval -> Prop) (s : st) (f : string) (k : option string) : Prop :=
    exists c x g, under T c /\ called c g /\ below x c /\ keyword_arg x k /\ resolves (imp_in T s) (asg_in T s) g f.
  Definition kw_outer (T : pyval -> Prop) (s : st) (f : string) (k : option string) : Prop :=
    exists x g, under T x /\ In g (s_fns s) /\ keyword_arg x k /\ resolves (imp_in T s) (asg_in T s) g f.

  Lemma resolves_up (T T' : pyval -> Prop) s s' g f : (forall x, under T' x -> under T x) ->
    s_import_mem_mod s' = s_import_mem_mod s -> s_name_res s' = s_name_res s ->
    resolves (imp_in T' s') (asg_in T' s') g f -> resolves (imp_in T s) (asg_in T s) g f.
  Proof.
    intros U M R. apply resolves_mono; unfold imp_in, asg_in; rewrite ?M, ?R.
    - intros x m [I|(n & X & I)]; [auto|]. right. eauto.
    - intros x [I|(n & X & I)]; [auto|]. right. eauto.
  Qed.

  Lemma kw_up (T T' : pyval -> Prop) s s' f k : (forall x, under T' x -> under T x) ->
    s_import_mem_mod s' = s_import_mem_mod s -> s_name_res s' = s_name_res s -> s_fns s' = s_fns s ->
    kw_found T' s' f k \/ kw_outer T' s' f k -> kw_found T s f k \/ kw_outer T s f k.
  Proof.
    intros U M R F [(c & x & g & A & B & C & D & E)|(x & g & A & B & C & D)].
    - left. exists c, x, g. repeat (split; auto). exact (resolves_up _ _ _ _ _ _ U M R E).
    - right. exists x, g. rewrite <- F. repeat (split; auto). exact (resolves_up _ _ _ _ _ _ U M R D).
  Qed.

  Lemma resolves_later T s s1 g f : runs T s s1 ->
    resolves (imp_in T s1) (asg_in T s1) g f -> resolves (imp_in T s) (asg_in T s) g f.
  Proof.
    intros R. pose proof (runs_flat _ _ _ R) as F. apply resolves_mono.
    - intros x m [I|I]; [exact (flat_imported _ _ _ _ _ F I)|right; exact I].
    - intros x [I|I]; [exact (flat_keys _ _ _ _ F I)|right; exact I].
  Qed.

  Lemma runs_kwargs T s s' f k : runs T s s' -> In (f, k) (s_kwargs s') ->
    In (f, k) (s_kwargs s) \/ kw_found T s f k \/ kw_outer T s f k.
  Proof.
    intros R. induction R; unfold push_frame, pop_frame, raise_flag in *; cbn in *; intros L; auto;
      try (destruct (IHR L) as [|X]; [auto|]; right; refine (kw_up _ _ _ _ _ _ _ eq_refl eq_refl eq_refl X);
           first [ exact (fun x U => U) | exact (under_sub _ _ H) | refine (under_up _ _ n H _); reach ]).
    - destruct (IHR2 L) as [L'|[(c & x & g & A & B & C & D & E)|(x & g & A & B & C & D)]]; [auto|..]; right.
      + left. exists c, x, g. repeat (split; auto). exact (resolves_later _ _ _ _ _ R1 E).
      + right. exists x, g. repeat (split; auto); [|exact (resolves_later _ _ _ _ _ R1 D)].
        destruct (runs_fns _ _ _ R1) as (tl & ->). apply in_or_app. left. exact B.
    - rewrite in_app_iff in L. destruct L as [L|[L|[]]]; [auto|]. injection L as <- <-. right. right.
      exists n, g. split; [apply under_self; [exact H|exact (isa_node _ _ H0)]|]. split; [exact H2|].
      split; [split; [exact H0|exact H1]|apply kw_resolves].
    - destruct (IHR L) as [|[X|(x & g' & A & B & C & D)]]; [auto|..]; right.
      + left. destruct X as (c & x & g' & A & B & C & D & E). exists c, x, g'.
        assert (Up : forall x, under (inside n) x -> under T x) by (refine (under_up _ _ n H _); reach).
        repeat (split; auto). exact (resolves_up _ _ s _ _ _ Up eq_refl eq_refl E).
      + assert (Up : forall x, under (inside n) x -> under T x) by (refine (under_up _ _ n H _); reach).
        cbn in B. rewrite in_app_iff in B. destruct B as [B|[<-|[]]].
        * right. exists x, g'. repeat (split; auto). exact (resolves_up _ _ s _ _ _ Up eq_refl eq_refl D).
        * left. exists n, x, g. split; [apply under_self; [exact H|exact (isa_node _ _ H0)]|].
          split; [apply callee_called; assumption|]. split.
          { destruct A as (m & I & Bx). refine (below_trans _ _ _ Bx _). apply inside_below, I. exact (isa_node _ _ H0). }
          split; [exact C|]. exact (resolves_up _ _ s _ _ _ Up eq_refl eq_refl D).
  Qed.
End Claims.

(** ** The tour *)

Section TourEnd.
  Variable e : env.

  Lemma print_out lv m en li ve pl s s' : verbose_print_v e lv m en li ve pl s = Ok s' -> exists o, s' = u_out o s.
  Proof.
    intros E. unfold verbose_print_v in E.
    assert (Id : forall s, exists o, s = u_out o s) by (intros x; exists (s_out x); destruct x; reflexivity).
    destruct (violates e ve) as [[|]|]; try discriminate; [|injection E as <-; apply Id].
    destruct (_ || _); [injection E as <-; apply Id|].
    destruct (match en with Some x => _ | None => _ end) as [[? ?]|]; injection E as <-; eexists; reflexivity.
  Qed.

  Lemma prints_out {A} (f : A -> act) l : (forall x s s', f x s = Ok s' -> exists o, s' = u_out o s) ->
    forall s s', each f l s = Ok s' -> exists o, s' = u_out o s.
  Proof.
    intros F. induction l as [|x r IH]; intros s s' E; cbn [each] in E.
    - injection E as <-. exists (s_out s). destruct s; reflexivity.
    - destruct (seq_ok _ _ _ _ E) as (s1 & E1 & E2). destruct (F _ _ _ E1) as (o & ->).
      destruct (IH _ _ E2) as (o' & ->). exists o'. reflexivity.
  Qed.

  Lemma filter_all {A} (f : A -> bool) l : (forall x, f x = true) -> filter f l = l.
  Proof. intros F. induction l as [|x r IH]; [reflexivity|]. simpl. rewrite F, IH. reflexivity. Qed.

  Lemma filter_more u r (l : list string) :
    filter (fun m => negb (mem m (u :: r))) l =
    filter (fun m => negb (mem m r)) (filter (fun m => negb (String.eqb u m)) l).
  Proof.
    induction l as [|x l IH]; [reflexivity|]. cbn [filter].
    change (mem x (u :: r)) with (String.eqb x u || mem x r). rewrite (String.eqb_sym u x).
    destruct (String.eqb x u); cbn [orb negb]; [exact IH|]. cbn [filter].
    destruct (mem x r); cbn [negb]; rewrite IH; reflexivity.
  Qed.

  (** The tour ends by dropping the names that are defined. *)
  Lemma after_eq s s' : after_visit_all e s = Ok s' ->
    exists o, s' = u_out o (u_members (filter (fun m => negb (mem m (s_user_defs s))) (s_members s))
                    (u_modules (filter (fun m => negb (mem m (s_user_defs s))) (s_modules s)) s)).
  Proof.
    unfold after_visit_all, rd.
    assert (D : forall what get put ud x x',
              drop_user_def e what get put ud x = Ok x' ->
              (forall o y, get (u_out o y) = get y) ->
              exists o, x' = put (filter (fun m => negb (String.eqb ud m)) (get x)) (u_out o x)).
    { intros what get put ud x x' E G. unfold drop_user_def, rd in E.
      destruct (seq_ok _ _ _ _ E) as (x1 & E1 & E2). injection E2 as <-.
      apply prints_out in E1 as (o & ->); [|intros _ y y'; apply print_out].
      exists o. rewrite G. reflexivity. }
    generalize (s_user_defs s). intros uds. revert s s'. induction uds as [|u r IH]; intros s s' E; cbn [each] in E.
    - injection E as <-. exists (s_out s).
      rewrite !(filter_all (fun m => negb (mem m []))) by reflexivity. destruct s. reflexivity.
    - destruct (seq_ok _ _ _ _ E) as (s1 & E1 & E2). destruct (seq_ok _ _ _ _ E1) as (s2 & E3 & E4).
      apply D in E3 as (o1 & ->); [|reflexivity]. apply D in E4 as (o2 & ->); [|reflexivity].
      destruct (IH _ _ E2) as (o & ->). exists o. rewrite !(filter_more u r).
      destruct s. reflexivity.
  Qed.

  Lemma tour_runs v s : tour e v = Ok s -> exists s1 o,
    runs e (own v) init_st s1 /\
    s = u_out o (u_members (filter (fun m => negb (mem m (s_user_defs s1))) (s_members s1))
          (u_modules (filter (fun m => negb (mem m (s_user_defs s1))) (s_modules s1)) s1)).
  Proof.
    unfold tour. intros E. destruct (seq_ok _ _ _ _ E) as (s1 & E1 & E2).
    destruct (after_eq _ _ E2) as (o & ->). exists s1, o. split; [exact (visit_runs e v _ _ E1)|reflexivity].
  Qed.

  Lemma own_under v x : under (own v) x -> below x v.
  Proof. intros (n & O & B). exact (below_trans _ _ _ B (own_below _ _ O)). Qed.

  Lemma tour_present v s f : tour e v = Ok s -> In f (s_flags s) -> present e v f.
  Proof.
    intros E I. destruct (tour_runs _ _ E) as (s1 & o & R & ->). cbn in I.
    destruct (flag_eq_dec f FEllipsis) as [->|N].
    - destruct (runs_ellipsis _ _ _ _ R I) as [[]|(n & c & O & L & C & _)].
      exact (pr_ellipsis _ _ c (own_loose _ _ _ O L) C).
    - destruct (runs_flags _ _ _ _ _ R (Forall_nil _) I N) as [[]|[(n & m & O & B & S)|(_ & (l & F) & _)]].
      + exact (pr_node _ _ _ m (below_trans _ _ _ B (own_below _ _ O)) S).
      + destruct l; discriminate.
  Qed.
End TourEnd.
