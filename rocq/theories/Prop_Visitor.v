(** C37, C39, C42, C43, C59: what the tour of one syntax tree finds. *)
From Verif Require Import PyBase PyLemmas Utility RulesData Rules Config Formats Paths AstKinds Ast State Visitor
  Spec_Base Spec_Visitor Proof_Shapes Proof_Runs Proof_Handlers Proof_Brackets Proof_Tour Proof_Claims Proof_Scopes
  Trees.

(** A visitor with the default configuration, one with exclusions. *)
Definition env_default : env := mkEnv (default_config 1) "a.py" None [] (fun _ _ => Ok false) (fun _ => "").
Definition env_without (l : list string) : env :=
  mkEnv (w_exclusions_set l (default_config 1)) "a.py" None [] (fun _ _ => Ok false) (fun _ => "").

(** What a visit or tour ends with. *)
Definition ended (r : res st) : st := match r with Ok s => s | Err _ => init_st end.
Ltac run := vm_compute; reflexivity.
Ltac ok := lazymatch goal with |- exists s, ?r = Ok s /\ _ => exists (ended r); split; [run|] end.

(** ** C37 *)
(** A feature is only reported for a tree with a construct of it. *)
Theorem c37_present : forall e v s f, tour e v = Ok s -> In f (s_flags s) -> present e v f.
Proof. exact tour_present. Qed.
Print Assumptions c37_present.

Example c37_case : exists s, tour env_default tree_features = Ok s /\
  s_flags s = [FAsyncGenerator; FEllipsis; FBytesV3; FPrintV3; FFstrings; FCoroutines; FNamedExprs; FKwOnlyArgs].
Proof. ok. run. Qed.
Example c37_finally : (exists s, tour env_default tree_finally = Ok s /\ s_flags s = [FContinueInFinally]) /\
  exists s, tour env_default tree_finally_loop = Ok s /\ s_flags s = [].
Proof. split; ok; run. Qed.

(** So a source with none of the constructs shows no feature. *)
Theorem c37_absent : forall e v s, tour e v = Ok s -> (forall f, ~ present e v f) -> s_flags s = [].
Proof. exact tour_absent. Qed.
Print Assumptions c37_absent.

(** ** C39 *)
(** Nothing excluded is among what was detected, in the words of the exclusion option. *)
Theorem c39_excluded : forall e v s, tour e v = Ok s ->
  (forall m, In m (s_modules s) -> ~ In m (c_exclusions_set (e_cfg e))) /\
  (forall m, In m (s_members s) -> ~ In m (c_exclusions_set (e_cfg e))) /\
  (forall f k, In (f, Some k) (s_kwargs s) -> ~ In (f +++ "(" +++ k +++ ")") (c_exclusions_set (e_cfg e))) /\
  (forall d, In d (s_ufds s) -> ~ In d (c_exclusions_set (e_cfg e))) /\
  (forall h, In (VStr h) (s_cehs s) -> ~ In ("ceh=" +++ h) (c_exclusions_set (e_cfg e))) /\
  (forall n, In (VStr n) (s_cencs s) -> ~ In ("ce=" +++ n) (c_exclusions_set (e_cfg e))) /\
  (In FLongV2 (s_flags s) -> ~ In "long" (c_exclusions_set (e_cfg e))).
Proof. exact tour_excluded. Qed.
Print Assumptions c39_excluded.

Example c39_case :
  let e := env_without ["argparse"; "os.path.relpath"; "long"; "print(end)"] in
  exists s, tour env_default tree_exclusions = Ok s /\ exists s', tour e tree_exclusions = Ok s' /\
  s_modules s = ["argparse"; "asyncio"; "os"; "os.path"; "os.path.relpath"] /\ s_modules s' = ["asyncio"; "os"; "os.path"] /\
  s_members s = ["os.path.relpath"] /\ s_members s' = [] /\
  s_kwargs s = [("print", Some "end"); ("os.path.relpath", Some "start")] /\ s_kwargs s' = [("os.path.relpath", Some "start")] /\
  s_flags s = [FPrintV3; FLongV2] /\ s_flags s' = [FPrintV3].
Proof. cbv zeta. ok. ok. repeat split; run. Qed.

(** ** C42 *)
(** The loop, depth and try bookkeeping is balanced over every tree, from every state. *)
Theorem c42_balanced : forall e v s s', visit e v s = Ok s' ->
  s_depth s' = s_depth s /\ s_seen_for s' = s_seen_for s /\ s_seen_while s' = s_seen_while s /\
  s_try_finally s' = s_try_finally s.
Proof. exact visit_balanced. Qed.
Print Assumptions c42_balanced.

(** The names known after a scope are the names known before it. *)
Theorem c42_scopes : forall e k v s s',
  In k [KLambda; KListComp; KSetComp; KDictComp; KGeneratorExp; KFor; KAsyncFor; KWith; KAsyncWith; KExceptHandler] ->
  isa k v -> visit e v s = Ok s' -> s_user_defs s' = s_user_defs s.
Proof. exact visit_scope. Qed.
Print Assumptions c42_scopes.

(** A function leaves its own name and nothing else. *)
Theorem c42_functions : forall e v s s' x, function_def v -> visit e v s = Ok s' ->
  (In x (s_user_defs s') -> x = as_str (attr "name" v) \/ In x (s_user_defs s)) /\
  (In x (s_user_defs s) -> In x (s_user_defs s')).
Proof. exact visit_function. Qed.
Print Assumptions c42_functions.

(** Nothing known is forgotten, whatever is visited. *)
Theorem c42_kept : forall e v s s', visit e v s = Ok s' -> incl (s_user_defs s) (s_user_defs s').
Proof. exact visit_kept. Qed.
Print Assumptions c42_kept.

(** The functions being called are the same after a tree in which every call is by name. *)
Theorem c42_calls_partial : forall e v s s', (forall c, below c v -> isa KCall c -> named_call c) ->
  visit e v s = Ok s' -> s_fns s' = s_fns s.
Proof. exact visit_calls. Qed.
Print Assumptions c42_calls_partial.

(** With other calls the stack only gets shorter. *)
Theorem c42_calls_shrink : forall e v s s', visit e v s = Ok s' -> exists popped, s_fns s = s_fns s' ++ popped.
Proof. exact visit_calls_shrink. Qed.
Print Assumptions c42_calls_shrink.

Example c42_case : exists s, tour env_default tree_scopes = Ok s /\
  s_user_defs s = ["A"; "f"; "self"; "argparse"] /\ s_depth s = 0 /\ s_try_finally s = [].
Proof. ok. repeat split; run. Qed.

(** A class leaves the arguments of its methods behind: the import of the module argparse after the
    class is taken for a use of a name of the source. *)
Theorem c42_class_refuted : exists e v s s' x, isa KClassDef v /\ visit e v s = Ok s' /\
  In x (s_user_defs s') /\ x <> as_str (attr "name" v) /\ ~ In x (s_user_defs s).
Proof.
  exists env_default, (hd VNone (items "body" tree_scopes)), init_st,
    (ended (visit env_default (hd VNone (items "body" tree_scopes)) init_st)), "argparse".
  split; [run|]. split; [run|]. split; [vm_compute; auto 10|]. split; [vm_compute; discriminate|]. vm_compute. tauto.
Qed.
Print Assumptions c42_class_refuted.

(** A call of something else than a name or an attribute takes the enclosing call from the stack. *)
Theorem c42_calls_refuted : exists e v s s', visit e v s = Ok s' /\ s_fns s' <> s_fns s.
Proof.
  exists env_default, (hd VNone (items "args" (attr "value" (nth 1 (items "body" tree_kwarg_lost) VNone)))).
  exists (u_fns ["bz2.open"] init_st). ok. vm_compute. discriminate.
Qed.
Print Assumptions c42_calls_refuted.

(** ** C43 *)
(** A keyword argument is only looked up for functions whose call it stands in: some call [c] of
    the tree holds the keyword, and the function is one the callee of [c] can stand for. *)
Theorem c43_sound : forall e v s f k, tour e v = Ok s -> In (f, k) (s_kwargs s) ->
  exists c x g, below c v /\ called c g /\ below x c /\ keyword_arg x k /\
  resolves (fun x m => exists n, below n v /\ imports_from n m x) (fun a => exists n, below n v /\ assigns n a) g f.
Proof. exact tour_keyword. Qed.
Print Assumptions c43_sound.

Example c43_case : exists s, tour env_default tree_kwargs = Ok s /\
  s_kwargs s = [("zipfile.ZipFile", Some "compresslevel"); ("zipfile.ZipFile.open", Some "mode"); ("h", Some "x");
                ("g", Some "x"); ("h", Some "y")].
Proof. ok. run. Qed.

(** But not only for its own call: in [h(g(x=1), y=2)] the keyword [x] is looked up for [h] too. *)
Theorem c43_own_refuted : exists e v s f k, tour e v = Ok s /\ In (f, k) (s_kwargs s) /\
  f = "h" /\ forall c, below c v -> called c f -> ~ exists x, In x (items "keywords" c) /\ keyword_arg x k.
Proof.
  exists env_default, (last (items "body" tree_kwargs) VNone),
    (ended (tour env_default (last (items "body" tree_kwargs) VNone))), "h", (Some "x").
  split; [run|]. split; [vm_compute; auto|]. split; [reflexivity|].
  set (v := last (items "body" tree_kwargs) VNone).
  assert (All : forallb (fun c => negb (is_kind KCall c) ||
                  negb (existsb (fun x => match as_ostr (attr "arg" x) with Some k => String.eqb k "x" | None => false end)
                          (items "keywords" c)) ||
                  (is_kind KName (attr "func" c) && String.eqb (as_str (attr "id" (attr "func" c))) "g")) (walk v) = true) by run.
  intros c B Cl (x & I & _ & K). apply walk_below in B. rewrite forallb_forall in All. specialize (All c B).
  destruct Cl as [Kc Cl]. unfold isa in *. rewrite Kc in All. cbn [negb orb] in All.
  replace (existsb _ (items "keywords" c)) with true in All.
  2: { symmetry. apply existsb_exists. exists x. split; [exact I|]. rewrite K. reflexivity. }
  cbn [negb orb] in All. apply andb_prop in All as [N E]. apply String.eqb_eq in E.
  destruct Cl as [[_ Cl]|[A _]]; [congruence|]. destruct (attr "func" c); try discriminate.
  destruct k; discriminate.
Qed.
Print Assumptions c43_own_refuted.

(** And not always: in [bz2.open(f()(), newline=1)] it is not looked up at all. *)
Theorem c43_lost_refuted : exists e v s c x f k, tour e v = Ok s /\ below c v /\ called c f /\
  In x (items "keywords" c) /\ keyword_arg x k /\ s_kwargs s = [].
Proof.
  exists env_default, tree_kwarg_lost, (ended (tour env_default tree_kwarg_lost)).
  exists (attr "value" (nth 1 (items "body" tree_kwarg_lost) VNone)).
  exists (hd VNone (items "keywords" (attr "value" (nth 1 (items "body" tree_kwarg_lost) VNone)))).
  exists "bz2.open", (Some "newline"). split; [run|].
  split. { apply walk_below. vm_compute. auto 60. }
  split. { split; [run|]. right. split; [run|]. right. exists "bz2". run. }
  split; [vm_compute; auto|]. split; [split; run|run].
Qed.
Print Assumptions c43_lost_refuted.

(** ** C59 *)
(** A module is only reported because the tree imports it or an attribute ends with its name. *)
Theorem c59_modules : forall e v s m, tour e v = Ok s -> In m (s_modules s) -> exists n, below n v /\ module_use n m.
Proof. exact tour_module. Qed.
Print Assumptions c59_modules.

(** A member is only reported when it has a rule and the tree uses it by name, or uses an attribute
    with the name of a variable that the tree assigns. *)
Theorem c59_members : forall e v s m, tour e v = Ok s -> In m (s_members s) ->
  In m (map fst mod_mem_reqs_x) /\
  exists n, below n v /\
    (member_use n m \/ isa KAttribute n /\ exists n', below n' v /\ assigns n' (as_str (attr "attr" n))).
Proof. exact tour_member. Qed.
Print Assumptions c59_members.

Example c59_case : exists s, tour env_default tree_uses = Ok s /\
  s_modules s = ["os"; "os.path.relpath"; "os.path"; "zipfile"; "zipfile.ZipFile"] /\
  s_members s = ["os.path.relpath"; "ModuleNotFoundError"; "ModuleNotFoundError"].
Proof. ok. repeat split; run. Qed.

(** The second case of the members happens: [b = bz2.open] and then [a[i].b]. *)
Example c59_variable : exists s, tour env_default tree_slots = Ok s /\
  s_members s = ["bz2.open"; "bz2.open"].
Proof. ok. run. Qed.

(** ** C60 *)
(** The date directives are in literal arguments of strftime or strptime calls. *)
Theorem c60_strftime : forall e v s d, tour e v = Ok s -> In d (s_strftimes s) -> exists n, below n v /\ strftime_use n d.
Proof. intros e v s d E. exact (proj1 (tour_texts e v s E) d). Qed.
Print Assumptions c60_strftime.

(** The bytes directives are in bytes literals. *)
Theorem c60_bytes : forall e v s d, tour e v = Ok s -> In d (s_bytesdirs s) ->
  exists n b, below n v /\ constant (VBytes b) n /\ directive_in (const_text (VBytes b)) d.
Proof. intros e v s d E. exact (proj1 (proj2 (tour_texts e v s E)) d). Qed.
Print Assumptions c60_bytes.

(** Array type codes are literals given to array or array.array. *)
Theorem c60_typecodes : forall e v s d, tour e v = Ok s -> In d (s_typecodes s) ->
  exists n, below n v /\ typecode_use (fun a m => exists i, below i v /\ aliases i a m) n d.
Proof. intros e v s d E. destruct (tour_texts e v s E) as (_ & _ & A & _). exact (A d). Qed.
Print Assumptions c60_typecodes.

(** Error handlers and encodings are literals that a call of a codecs function has in the right place. *)
Theorem c60_codecs : forall e v s, tour e v = Ok s ->
  let imp x p := exists i, below i v /\ imports_from i p x in
  let ali a m := exists i, below i v /\ aliases i a m in
  (forall c, In c (s_cehs s) -> exists n, below n v /\ handler_use imp ali n c) /\
  (forall c, In c (s_cencs s) -> exists n, below n v /\ encoding_use imp ali n c).
Proof. intros e v s E. destruct (tour_texts e v s E) as (_ & _ & _ & A & B & _). exact (conj A B). Qed.
Print Assumptions c60_codecs.

(** A decorator is only reported when it has a rule and some function is decorated. *)
Theorem c60_decorators : forall e v s d, tour e v = Ok s -> In d (s_ufds s) ->
  In d (map fst decorator_user_functions) /\ exists n, below n v /\ decorated n.
Proof. intros e v s d E. destruct (tour_texts e v s E) as (_ & _ & _ & _ & _ & A & _). exact (A d). Qed.
Print Assumptions c60_decorators.

Example c60_case : exists s, tour env_default tree_texts = Ok s /\
  s_strftimes s = ["Y"; "G"] /\ s_bytesdirs s = ["d"] /\ s_typecodes s = ["q"] /\ s_cehs s = [VStr "namereplace"] /\
  s_cencs s = [VStr "mbcs"] /\ s_ufds s = ["functools.lru_cache"].
Proof. ok. repeat split; run. Qed.
