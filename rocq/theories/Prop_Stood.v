(** C38: features that show by what the names in the source stand for. *)
From Verif Require Import PyBase PyLemmas Utility RulesData Rules Config Formats Paths AstKinds Ast State Visitor MinVersions
  Spec_Base Spec_Visitor Spec_Same Spec_MinVersions Spec_Seen Proof_Shapes Proof_Runs Proof_Tour Proof_Forms Proof_Seen Proof_Reached
  Proof_Reach Trees_Names Prop_Visitor Prop_Seen.

(** Unions and merges of dicts, unions of types and builtin types with parameters are found if what their
    operands stand for follows from the source: displays and calls of [dict], variables that are given
    dicts only, imported, renamed and dotted names, classes, variables for types. [L] has the statements
    before the construct. *)
Theorem c38_names : forall e v L n f s, tour e v = Ok s -> reached e v L n -> stood e v L f n -> In f (s_flags s).
Proof. exact reached_stood. Qed.
Print Assumptions c38_names.

(** One construct of each form: a variable and a call, a variable of a type from a module and a dotted
    name, a merge into an attribute, a class and a dotted name, an imported, a dotted and an assigned type. *)
Definition cfg_names : config := w_features ["union-types"] (w_eval_annotations true (default_config 1)).
Definition env_names : env := mkEnv cfg_names "a.py" None [] (fun _ _ => Ok false) (fun _ => "").
Definition named_at (path : list (string * nat)) : list pyval * pyval :=
  match track env_names path [] tree_names with Some x => x | None => ([], VNone) end.
Definition stood_at (f : flag) (path : list (string * nat)) : Prop :=
  reached env_names tree_names (fst (named_at path)) (snd (named_at path)) /\ stood env_names tree_names (fst (named_at path)) f (snd (named_at path)).
Lemma named_reached path : is_node (snd (named_at path)) = true -> reached env_names tree_names (fst (named_at path)) (snd (named_at path)).
Proof.
  unfold named_at. destruct (track env_names path [] tree_names) as [[L n]|] eqn:T; [|discriminate]. intros _.
  exact (track_reached _ _ _ _ _ _ _ (rc_root env_names tree_names eq_refl) T).
Qed.
(** The nodes that assign [x]. *)
Definition assigning (v : pyval) (x : string) : list pyval :=
  filter (fun n => is_kind KAssign n && existsb (is_nameb x) (items "targets" n) ||
                   one_ofb [KAugAssign; KAnnAssign; KFor; KAsyncFor] n && is_nameb x (attr "target" n)) (walk v).
Lemma assigning_ok v x n : below n v -> assigns n x -> In n (assigning v x).
Proof.
  intros B A. apply filter_In. split; [apply walk_below, B|]. apply orb_true_intro. destruct A as [(K & t & I & N)|(K & N)].
  - left. apply andb_true_intro. split; [exact K|]. apply existsb_exists. exists t. split; [exact I|apply is_nameb_ok, N].
  - right. apply andb_true_intro. split; [|apply is_nameb_ok, N]. apply one_ofb_iff.
    destruct K as [K|[K|[K|K]]]; eexists; (split; [|exact K]); cbn; tauto.
Qed.
Definition stmt (i : nat) : pyval := nth i (items "body" tree_names) VNone.
Ltac is_one := split; reflexivity.
Ltac before i := exists (stmt i).
Lemma d_held L : In (stmt 5) L -> holds env_names tree_names L "d" "dict".
Proof.
  intros I. split.
  - exists (stmt 5), (attr "value" (stmt 5)). split; [exact I|]. split; [|apply vn_dict; reflexivity]. split; [intros []|]. split; [reflexivity|]. left.
    split; [reflexivity|]. eexists. split; [left; reflexivity|is_one].
  - intros n B A. apply (assigning_ok _ _ _ B) in A. vm_compute in A. destruct A as [<-|[]].
    split; [intros [X|X]; discriminate X|]. left. apply vn_dict. reflexivity.
Qed.
Lemma o_held L : In (stmt 6) L -> holds env_names tree_names L "o" "OrderedDict".
Proof.
  intros I. split.
  - exists (stmt 6), (attr "value" (stmt 6)). split; [exact I|]. split; [|apply vn_call; [reflexivity|is_one]]. split; [intros []|].
    split; [reflexivity|]. left. split; [reflexivity|]. eexists. split; [left; reflexivity|is_one].
  - intros n B A. apply (assigning_ok _ _ _ B) in A. vm_compute in A. destruct A as [<-|[]].
    split; [intros [X|X]; discriminate X|]. left. apply vn_call; [reflexivity|is_one].
Qed.
Lemma from_collections L x : In (stmt 2) L -> x = "OrderedDict" \/ x = "deque" -> imported_as env_names tree_names L x "collections".
Proof.
  intros I H. split; [exists (stmt 2); split; [exact I|]|].
  - split; [|destruct H as [-> | ->]; (split; [discriminate|]);
      [exists (nth 0 (items "names" (stmt 2)) VNone)|exists (nth 1 (items "names" (stmt 2)) VNone)]; (split; [vm_compute; tauto|reflexivity])].
    split; [reflexivity|]. split; [intros []|]. split; [reflexivity|]. vm_compute. intros z E. injection E as <-. discriminate.
  - destruct H as [-> | ->]; apply all_from_ok; run.
Qed.
Lemma co_stands L : In (stmt 1) L -> stands env_names tree_names L "co" "collections".
Proof.
  intros I. apply sd_renamed. split; [|apply all_named_ok; run]. exists (stmt 1). split; [exact I|].
  eapply renames_import; [reflexivity|intros []|left; reflexivity|reflexivity|reflexivity].
Qed.
Lemma environ_means L x u p u' p' c c' : x = VNode KAttribute u p [("value", VNode KName u' p' [("id", VStr "os"); ("ctx", c')]); ("attr", VStr "environ"); ("ctx", c)] ->
  ctx_node c -> ctx_node c' -> means env_names tree_names L x "os.environ".
Proof.
  intros -> C C'. exists "os.environ". split.
  - apply wr_dotted with "os" "os"; [exact (dn_base "os" "os" _ _ _ _ _ _ _ C C')|]. out.
  - left. split; [apply assignsb_ok; run|]. apply nf_itself; [apply unnamedb_ok; run|apply importedb_ok; run].
Qed.
Ltac here := vm_compute; tauto.
Example c38_names_case : exists s, tour env_names tree_names = Ok s /\
  stood_at FDictUnion [("body", 7%nat); ("test", 0%nat)] /\ stood_at FDictUnion [("body", 8%nat); ("value", 0%nat)] /\
  stood_at FDictUnionMerge [("body", 9%nat)] /\ stood_at FUnionTypes [("body", 10%nat); ("value", 0%nat)] /\
  stood_at FBuiltinGeneric [("body", 11%nat); ("value", 0%nat)] /\ stood_at FBuiltinGeneric [("body", 12%nat); ("value", 0%nat)] /\
  stood_at FBuiltinGeneric [("body", 13%nat); ("value", 0%nat)].
Proof.
  ok. repeat match goal with |- stood_at _ _ /\ _ => split end; (split; [apply named_reached; run|]).
  - apply so_union; [reflexivity|reflexivity| |].
    + left. apply (pd_variable _ _ _ _ "d"); [is_one|]. apply d_held. here.
    + left. apply pd_call; [reflexivity|is_one].
  - apply so_union; [reflexivity|reflexivity| |].
    + right. exists "collections.OrderedDict". split; [|cbv; tauto]. exists "o". split; [apply wr_name; is_one|]. right. exists "OrderedDict".
      split; [apply o_held; here|]. apply (nf_imported _ _ _ _ "collections"); [apply unnamedb_ok; run|]. apply from_collections; [here|auto].
    + right. exists "os.environ". split; [|cbv; tauto]. eapply environ_means; [vm_compute; reflexivity|ctx|ctx].
  - apply so_merge; [reflexivity|intros []|reflexivity| |].
    + apply (pd_variable _ _ _ _ "d"); [is_one|]. apply d_held. here.
    + right. exists "os.environ". split; [|cbv; tauto]. eapply environ_means; [vm_compute; reflexivity| |ctx].
      exists KStore; do 2 eexists; split; [right; left; reflexivity|reflexivity].
  - apply so_types; [reflexivity|reflexivity|left; reflexivity| |].
    + apply (tl_variable _ _ _ _ "A" "A"); [is_one|]. exists (stmt 3). split; [here|]. right. split; [reflexivity|]. split; [intros []|]. split; reflexivity.
    + apply tl_dotted with "co" "collections" "collections.abc"; [dn|apply co_stands; here|].
      intros n B. split; [apply (unnamedb_ok tree_names "collections.abc" ltac:(run) n B)|apply (assignsb_ok tree_names "collections.abc" ltac:(run) n B)].
  - apply so_generic with "collections.deque"; [reflexivity|intros []| |cbv; tauto|reflexivity|apply unnamedb_ok; run].
    apply gl_imported with "deque" "collections"; [is_one|cbv; intuition discriminate|apply from_collections; [here|auto]|reflexivity].
  - apply so_generic with "collections.deque"; [reflexivity|intros []| |cbv; tauto|reflexivity|apply unnamedb_ok; run].
    apply gl_dotted with "co" "collections"; [dn|apply co_stands; here].
  - apply so_generic with "list"; [reflexivity|intros []| |cbv; tauto|reflexivity|apply unnamedb_ok; run].
    apply gl_variable with "T"; [is_one|cbv; intuition discriminate|apply importedb_ok; run|].
    exists (stmt 4). split; [here|]. left. exists (attr "value" (stmt 4)). split; [|is_one]. split; [intros []|]. split; [reflexivity|]. left.
    split; [reflexivity|]. eexists. split; [left; reflexivity|is_one].
Qed.

(** Unions of dicts that are not found: of a dict comprehension, of a call by a dotted name of a type that
    is found when called by an imported name, of a variable that a named expression gives a dict. *)
Definition operands_of (n l r : pyval) : Prop := isa KBinOp n /\ isa KBitOr (attr "op" n) /\ l = attr "left" n /\ r = attr "right" n.
Theorem c38_dict_comprehension_refuted : exists e v n l r s, tour e v = Ok s /\ reached e v [] n /\ e_nolines e = [] /\
  operands_of n l r /\ isa KDictComp l /\ isa KDict r /\ ~ In FDictUnion (s_flags s).
Proof.
  exists env_default, tree_dict_comp, (node_at [("body", 0%nat); ("value", 0%nat)] tree_dict_comp). do 2 eexists.
  exists (ended (tour env_default tree_dict_comp)). split; [run|]. split; [apply seen_reached; [reflexivity|at_node]|]. split; [reflexivity|].
  split; [repeat split|]. split; [reflexivity|]. split; [reflexivity|]. vm_compute. intuition discriminate.
Qed.
Print Assumptions c38_dict_comprehension_refuted.
Theorem c38_dotted_call_refuted : exists e v L n l r d s, tour e v = Ok s /\ reached e v L n /\ e_nolines e = [] /\
  operands_of n l r /\ isa KCall l /\ dotted_name "collections" "collections" (attr "func" l) d /\ stands e v L "collections" "collections" /\
  In d dict_union_supported_types /\ isa KDict r /\ ~ In FDictUnion (s_flags s).
Proof.
  exists env_default, tree_dict_call, (fst (tracked [("body", 1%nat); ("value", 0%nat)] tree_dict_call)),
    (snd (tracked [("body", 1%nat); ("value", 0%nat)] tree_dict_call)). do 2 eexists. exists "collections.OrderedDict".
  exists (ended (tour env_default tree_dict_call)). split; [run|]. split; [apply tracked_reached; run|]. split; [reflexivity|].
  split; [repeat split|]. split; [reflexivity|]. split; [dn|]. split; [out|]. split; [cbv; tauto|]. split; [reflexivity|].
  vm_compute. intuition discriminate.
Qed.
Print Assumptions c38_dotted_call_refuted.
Theorem c38_walrus_refuted : exists e v L n l r i s, tour e v = Ok s /\ reached e v L n /\ e_nolines e = [] /\
  operands_of n l r /\ named "d" l /\ isa KDict r /\
  In i L /\ isa KNamedExpr (attr "value" i) /\ named "d" (attr "target" (attr "value" i)) /\ isa KDict (attr "value" (attr "value" i)) /\
  ~ In FDictUnion (s_flags s).
Proof.
  exists env_default, tree_dict_walrus, (fst (tracked [("body", 1%nat); ("value", 0%nat)] tree_dict_walrus)),
    (snd (tracked [("body", 1%nat); ("value", 0%nat)] tree_dict_walrus)). do 2 eexists. exists (nth 0 (items "body" tree_dict_walrus) VNone).
  exists (ended (tour env_default tree_dict_walrus)). split; [run|]. split; [apply tracked_reached; run|]. split; [reflexivity|].
  split; [repeat split|]. split; [split; reflexivity|]. split; [reflexivity|]. split; [vm_compute; tauto|]. split; [reflexivity|].
  split; [split; reflexivity|]. split; [reflexivity|]. vm_compute. intuition discriminate.
Qed.
Print Assumptions c38_walrus_refuted.
