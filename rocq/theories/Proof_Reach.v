(** Deciding the premises of C38, C40 and C61 on concrete trees. *)
From Verif Require Import PyBase PyLemmas Utility RulesData Rules Config Formats Paths AstKinds Ast State Visitor
  Spec_Base Spec_Visitor Spec_Same Spec_Seen Proof_Utility Proof_Shapes Proof_Tour Proof_Forms.

(** ** Seen *)
Definition one_ofb (ks : list kind) (v : pyval) : bool := existsb (fun k => is_kind k v) ks.
Definition countedb (e : env) (v : pyval) : bool := negb (existsb (Z.eqb (lineno v)) (e_nolines e)).
Definition opensb (e : env) (outer : bool) (v : pyval) (f : string) : bool :=
  negb (one_ofb blind v) && (negb (one_ofb line_tested v) || countedb e v) &&
  (negb (is_kind KAnnAssign v) || c_eval_annotations (e_cfg e)) &&
  (negb ((is_kind KFunctionDef v || is_kind KAsyncFunctionDef v) && String.eqb f "returns") || c_eval_annotations (e_cfg e)) &&
  (negb outer || negb (one_ofb scopes v)).

(** The node at the field [f], the [i]-th of a list. *)
Definition at_field (f : string) (i : nat) (v : pyval) : option pyval :=
  match assoc f (fields v) with
  | Some (VList l) => match nth_error l i with Some x => if is_node x then Some x else None | None => None end
  | Some x => if is_node x then Some x else None
  | None => None
  end.
Fixpoint reach (e : env) (outer : bool) (path : list (string * nat)) (v : pyval) : option pyval :=
  match path with
  | [] => if is_node v then Some v else None
  | (f, i) :: r => if opensb e outer v f then match at_field f i v with Some x => reach e outer r x | None => None end else None
  end.

Lemma one_ofb_iff ks v : one_ofb ks v = true <-> one_of ks v.
Proof.
  unfold one_ofb, one_of. rewrite existsb_exists. split; intros (k & I & K); exists k; (split; [exact I|exact K]).
Qed.
Lemma opensb_opens e outer v f : opensb e outer v f = true -> opens e outer v f.
Proof.
  unfold opensb. rewrite !andb_true_iff, !orb_true_iff, !negb_true_iff. intros ((((A & B) & C) & D) & E).
  assert (no : forall ks, one_ofb ks v = false -> ~ one_of ks v).
  { intros ks H O. apply one_ofb_iff in O. congruence. }
  split; [exact (no _ A)|]. split; [|split; [|split]].
  - intros O. destruct B as [B|B]; [destruct (no _ B O)|]. unfold countedb in B. apply negb_true_iff in B. intros I.
    assert (existsb (Z.eqb (lineno v)) (e_nolines e) = true) by (apply existsb_exists; exists (lineno v); split; [exact I|apply Z.eqb_refl]). congruence.
  - intros K. unfold isa in K. destruct C as [C|C]; [congruence|exact C].
  - intros K ->. destruct D as [D|D]; [|exact D]. cbn in D. rewrite andb_true_r in D. apply orb_false_iff in D as [D1 D2].
    destruct K as [K|K]; unfold isa in K; congruence.
  - intros ->. destruct E as [E|E]; [discriminate|]. exact (no _ E).
Qed.
Lemma at_field_child f i v x : at_field f i v = Some x -> child f x v.
Proof.
  unfold at_field, child. destruct (assoc f (fields v)) as [y|] eqn:A; [|discriminate]. apply assoc_In in A. intros H.
  assert (D : (if is_node y then Some y else None) = Some x -> is_node x = true /\ exists y0, In (f, y0) (fields v) /\ (y0 = x \/ exists l, y0 = VList l /\ In x l)).
  { destruct (is_node y) eqn:N; [|discriminate]. intros Q. injection Q as <-. split; [exact N|]. exists y. split; [exact A|left; reflexivity]. }
  destruct y as [ |b|z|s|s|s|s| |l|k u p fs]; try exact (D H).
  destruct (nth_error l i) as [z|] eqn:Z; [|discriminate]. destruct (is_node z) eqn:N; [|discriminate]. injection H as ->.
  split; [exact N|]. exists (VList l). split; [exact A|]. right. exists l. split; [reflexivity|]. exact (nth_error_In _ _ Z).
Qed.
Lemma reach_seen e outer path : forall v n, reach e outer path v = Some n -> seen e outer n v.
Proof.
  induction path as [|[f i] r IH]; intros v n; cbn.
  - destruct (is_node v) eqn:N; [|discriminate]. intros E. injection E as ->. constructor 1. exact N.
  - destruct (opensb e outer v f) eqn:O; [|discriminate]. destruct (at_field f i v) as [x|] eqn:A; [|discriminate].
    intros E. exact (seen_child _ _ _ _ _ _ (opensb_opens _ _ _ _ O) (at_field_child _ _ _ _ A) (IH _ _ E)).
Qed.

(** The same without going through nodes of the classes [stops]. *)
Fixpoint spot (e : env) (stops : list kind) (path : list (string * nat)) (v : pyval) : option pyval :=
  match path with
  | [] => if is_node v then Some v else None
  | (f, i) :: r =>
      if negb (one_ofb stops v) && opensb e false v f
      then match at_field f i v with Some x => spot e stops r x | None => None end else None
  end.
Definition spot_in (e : env) (stops : list kind) (path : list (string * nat)) (v : pyval) : option pyval :=
  match path with
  | [] => None
  | (f, i) :: r => if opensb e false v f then match at_field f i v with Some x => spot e stops r x | None => None end else None
  end.
Lemma spot_sight e stops path : forall v n, spot e stops path v = Some n -> sight e stops n v.
Proof.
  induction path as [|[f i] r IH]; intros v n; cbn.
  - destruct (is_node v) eqn:N; [|discriminate]. intros E. injection E as ->. constructor 1. exact N.
  - destruct (one_ofb stops v) eqn:K; [discriminate|]. cbn [negb andb].
    destruct (opensb e false v f) eqn:O; [|discriminate]. destruct (at_field f i v) as [x|] eqn:A; [|discriminate].
    intros E. refine (sg_child _ _ _ _ f x _ (opensb_opens _ _ _ _ O) (at_field_child _ _ _ _ A) (IH _ _ E)).
    intros Q. apply one_ofb_iff in Q. congruence.
Qed.
Lemma spot_sighted e stops path v n : spot_in e stops path v = Some n -> sighted e stops n v.
Proof.
  destruct path as [|[f i] r]; cbn; [discriminate|]. destruct (opensb e false v f) eqn:O; [|discriminate].
  destruct (at_field f i v) as [x|] eqn:A; [|discriminate]. intros E. exists f, x.
  split; [exact (opensb_opens _ _ _ _ O)|]. split; [exact (at_field_child _ _ _ _ A)|exact (spot_sight _ _ _ _ _ E)].
Qed.

(** ** Names *)
Definition given (v : pyval) : list string :=
  match v with VStr s => [s] | VNode KName _ _ fs => [fstr "id" fs] | _ => [] end.
Definition targets_of (v : pyval) : list string := flat_map given (assign_target_walk v).
Definition names_of (n : pyval) : list string :=
  match n with
  | VNode (KFunctionDef | KAsyncFunctionDef | KClassDef) _ _ _ => [as_str (attr "name" n)]
  | VNode (KImport | KImportFrom) _ _ _ => flat_map (fun a => given (attr "asname" a)) (items "names" n)
  | VNode KAssign _ _ _ => flat_map targets_of (items "targets" n)
  | VNode (KAugAssign | KAnnAssign | KNamedExpr) _ _ _ => given (attr "target" n)
  | VNode (KFor | KAsyncFor) _ _ _ => targets_of (attr "target" n)
  | VNode (KWith | KAsyncWith) _ _ _ => flat_map (fun i => targets_of (attr "optional_vars" i)) (items "items" n)
  | VNode KExceptHandler _ _ _ => given (attr "name" n)
  | VNode (KListComp | KGeneratorExp | KSetComp | KDictComp) _ _ _ => flat_map (fun c => targets_of (attr "target" c)) (items "generators" n)
  | VNode Karguments _ _ _ =>
      flat_map (fun a => given (attr "arg" a))
        (items "args" n ++ items "posonlyargs" n ++ items "kwonlyargs" n ++ [attr "vararg" n; attr "kwarg" n])
  | _ => []
  end.
Lemma gives_given v x : gives v x -> In x (given v).
Proof.
  intros [->|[[K N] _]]; [left; reflexivity|]. apply isa_node in K as (u & p & fs & ->). left. exact N.
Qed.
Lemma bound_targets x v : bound x v -> In x (targets_of v).
Proof. intros B. apply target_bound in B as (m & I & G). apply in_flat_map. exists m. split; [exact I|apply gives_given, G]. Qed.
Lemma defines_names n x : defines n x -> In x (names_of n).
Proof.
  intros D. unfold defines in D.
  repeat match goal with
    | H : _ \/ _ |- _ => destruct H as [H|H]
    | H : _ /\ _ |- _ => destruct H as [H ?]
    | H : ex _ |- _ => destruct H as [? H]
    end.
  all: match goal with K : isa _ ?m |- In _ (names_of ?m) => apply isa_node in K as (?u & ?p & ?fs & ->) end; cbn [names_of].
  all: try (left; assumption).
  all: try (apply gives_given; assumption).
  all: try (apply bound_targets; assumption).
  all: apply in_flat_map; eexists; split.
  all: try (apply bound_targets; eassumption).
  all: try (apply gives_given; first [eassumption | left; eassumption]).
  all: try eassumption.
  all: rewrite !in_app_iff; cbn; subst; tauto.
Qed.
Definition unnamedb (v : pyval) (x : string) : bool := forallb (fun n => negb (mem x (names_of n))) (walk v).
Lemma unnamedb_ok v x : unnamedb v x = true -> unnamed v x.
Proof.
  intros H n B D. unfold unnamedb in H. rewrite forallb_forall in H. apply walk_below in B. specialize (H n B).
  apply negb_true_iff, mem_false in H. apply H, defines_names, D.
Qed.

(** ** Dotted names and imports *)
Lemma dotted_name_eq b r n d n' d' : n = n' -> dotted_name b r n' d' -> d = d' -> dotted_name b r n d.
Proof. intros -> D ->. exact D. Qed.
Lemma loads_import e n x a : isa KImport n -> counted e n -> In a (items "names" n) -> as_str (attr "name" a) = x -> loads e n x.
Proof. intros K C I <-. exact (lo_import e n a K C I). Qed.
Lemma renames_import e i a m x : isa KImport i -> counted e i -> In x (items "names" i) -> attr "asname" x = VStr a ->
  as_str (attr "name" x) = m -> renames e i a m.
Proof. intros K C I A <-. exact (rn_import e i a x K C I A). Qed.
Definition importedb (v : pyval) (x : string) : bool :=
  existsb (fun n => is_kind KImportFrom n && existsb (fun a => String.eqb (as_str (attr "name" a)) x) (items "names" n)) (walk v).
Lemma importedb_ok v x : importedb v x = false -> not_imported v x.
Proof.
  intros H m p B (K & _ & a & I & E). apply walk_below in B. enough (importedb v x = true) by congruence.
  apply existsb_exists. exists m. split; [exact B|]. apply andb_true_intro. split; [exact K|]. apply existsb_exists.
  exists a. split; [exact I|]. apply String.eqb_eq, E.
Qed.
Definition is_nameb (x : string) (v : pyval) : bool := is_kind KName v && String.eqb (as_str (attr "id" v)) x.
Definition assignsb (v : pyval) (x : string) : bool :=
  existsb (fun n => is_kind KAssign n && existsb (is_nameb x) (items "targets" n) ||
                    one_ofb [KAugAssign; KAnnAssign; KFor; KAsyncFor] n && is_nameb x (attr "target" n)) (walk v).
Lemma is_nameb_ok x v : is_name x v -> is_nameb x v = true.
Proof. intros [K E]. unfold is_nameb. rewrite E, String.eqb_refl, andb_true_r. exact K. Qed.
Lemma assignsb_ok v x : assignsb v x = false -> unassigned v x.
Proof.
  intros H n B A. apply walk_below in B. enough (assignsb v x = true) by congruence. apply existsb_exists. exists n. split; [exact B|].
  apply orb_true_intro. destruct A as [(K & t & I & N)|(K & N)].
  - left. apply andb_true_intro. split; [exact K|]. apply existsb_exists. exists t. split; [exact I|apply is_nameb_ok, N].
  - right. apply andb_true_intro. split; [|apply is_nameb_ok, N]. apply one_ofb_iff.
    destruct K as [K|[K|[K|K]]]; eexists; (split; [|exact K]); cbn; tauto.
Qed.
Definition text_is (x : string) (v : pyval) : bool := match v with VStr s => String.eqb s x | _ => false end.
(** Every import of [x] is from [p]; every import that names something [x] names [m]. *)
Definition all_from (v : pyval) (x p : string) : bool :=
  forallb (fun n => negb (is_kind KImportFrom n && existsb (fun a => String.eqb (as_str (attr "name" a)) x) (items "names" n)) ||
                    text_is p (attr "module" n)) (walk v).
Lemma all_from_ok v x p : all_from v x p = true -> forall n p', below n v -> imports_from n p' x -> p' = p.
Proof.
  intros H n p' B (K & M & a & I & E). unfold all_from in H. rewrite forallb_forall in H. apply walk_below in B. specialize (H n B).
  apply orb_prop in H as [H|H].
  - apply negb_true_iff in H. unfold isa in K. rewrite K in H. cbn in H.
    assert (existsb (fun a => String.eqb (as_str (attr "name" a)) x) (items "names" n) = true); [|congruence].
    apply existsb_exists. exists a. split; [exact I|apply String.eqb_eq, E].
  - rewrite M in H. cbn in H. apply String.eqb_eq, H.
Qed.
Definition alias_name (n i : pyval) : string :=
  if is_kind KImport n then as_str (attr "name" i) else as_str (attr "module" n) +++ "." +++ as_str (attr "name" i).
Definition all_named (v : pyval) (x m : string) : bool :=
  forallb (fun n => negb (one_ofb [KImport; KImportFrom] n) ||
                    forallb (fun i => negb (text_is x (attr "asname" i)) || String.eqb (alias_name n i) m) (items "names" n)) (walk v).
Lemma all_named_ok v x m : all_named v x m = true -> forall n m', below n v -> aliases n x m' -> m' = m.
Proof.
  intros H n m' B (i & I & A & D). unfold all_named in H. rewrite forallb_forall in H. apply walk_below in B. specialize (H n B).
  assert (O : one_ofb [KImport; KImportFrom] n = true).
  { apply one_ofb_iff. destruct D as [(K & _)|(K & _)]; eexists; (split; [|exact K]); cbn; tauto. }
  rewrite O in H. cbn [negb orb] in H. rewrite forallb_forall in H. specialize (H i I). rewrite A in H. cbn in H. rewrite String.eqb_refl in H.
  cbn in H. apply String.eqb_eq in H as <-. unfold alias_name. destruct D as [(K & ->)|(K & p & M & ->)].
  - unfold isa in K. rewrite K. reflexivity.
  - apply isa_node in K as (u & q & fs & ->). rewrite M. reflexivity.
Qed.

(** ** Reached *)
(** A path, with the earlier items of the lists it leads through. *)
Fixpoint track (e : env) (path : list (string * nat)) (L : list pyval) (v : pyval) : option (list pyval * pyval) :=
  match path with
  | [] => if is_node v then Some (L, v) else None
  | (f, i) :: r =>
      if opensb e false v f then
        match assoc f (fields v) with
        | Some (VList l) =>
            match nth_error l i with
            | Some x => if is_node x then track e r (filter is_node (firstn i l) ++ L) x else None
            | None => None
            end
        | Some x => if is_node x then track e r L x else None
        | None => None
        end
      else None
  end.
Lemma track_reached e v path : forall L w L' n, reached e v L w -> track e path L w = Some (L', n) -> reached e v L' n.
Proof.
  induction path as [|[f i] r IH]; intros L w L' n R; cbn.
  - destruct (is_node w); [|discriminate]. intros E. injection E as <- <-. exact R.
  - destruct (opensb e false w f) eqn:O; [|discriminate]. destruct (assoc f (fields w)) as [y|] eqn:A; [|discriminate]. apply assoc_In in A.
    apply opensb_opens in O.
    assert (D : (if is_node y then track e r L y else None) = Some (L', n) -> reached e v L' n).
    { destruct (is_node y) eqn:N; [|discriminate]. apply IH. exact (rc_field _ _ _ _ _ _ R O A N). }
    destruct y as [ |b|z|s|s|s|s| |l|k u p fs]; try exact D.
    destruct (nth_error l i) as [x|] eqn:Z; [|discriminate]. destruct (is_node x) eqn:N; [|discriminate]. apply IH.
    pose proof (nth_error_split l i Z) as (l1 & l2 & -> & Ln). subst i. rewrite firstn_app, Nat.sub_diag, firstn_all. cbn [firstn]. rewrite app_nil_r.
    refine (rc_item _ _ _ _ _ _ _ _ _ R O A N _). intros j J. apply filter_In in J as [J Nj]. exists j. split; [exact J|constructor 1; exact Nj].
Qed.

(** ** Keyword arguments *)
Lemma no_dot_ok x : sall (fun c => negb (Ascii.eqb "." c)) x = true -> no_dot x.
Proof. intros H a b ->. rewrite Proof_Utility.sall_app in H. apply andb_prop in H as [_ H]. discriminate. Qed.
Definition named_callb (c : pyval) : bool := negb (is_kind KCall c) || is_kind KName (attr "func" c) || is_kind KAttribute (attr "func" c).
Lemma named_calls_ok n : forallb named_callb (walk n) = true -> forall c, below c n -> isa KCall c -> named_call c.
Proof.
  intros H c B K. rewrite forallb_forall in H. apply walk_below in B. specialize (H c B). unfold named_callb in H. unfold isa in K. rewrite K in H.
  apply orb_prop in H as [H|H]; [left|right]; exact H.
Qed.
