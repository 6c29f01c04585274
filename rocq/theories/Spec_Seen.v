(** The parts of a syntax tree that an analysis comes to, and what it is certain to find there (C38, C40, C61). *)
From Verif Require Import PyBase Utility RulesData Rules Config Paths AstKinds Ast State Spec_Base Spec_Visitor Spec_Same Spec_MinVersions.

(** [x] is a node in the field [f] of [v], by itself or in a list. *)
Definition child (f : string) (x v : pyval) : Prop :=
  is_node x = true /\ exists y, In (f, y) (fields v) /\ (y = x \/ exists l, y = VList l /\ In x l).

(** Nodes whose parts are not looked at: names and literals, imports, keyword arguments, operators. *)
Definition blind : list kind :=
  [KImport; KImportFrom; KName; KConstant; KContinue; Kkeyword; Kalias; KLoad; KStore; KPass; KNot; KAdd; KSub; KMult; KDiv;
   KBitAnd; KOr; KBitOr; KEq; KNotEq; KLt; KGt; KIn; KIs; KBreak; KMod].
(** Nodes that an excluded line takes out: statements and expressions of C41. *)
Definition line_tested : list kind := excludable ++ excludable_expr.
(** Nodes with names of their own. *)
Definition scopes : list kind :=
  [KFunctionDef; KAsyncFunctionDef; KLambda; KListComp; KSetComp; KDictComp; KGeneratorExp; KFor; KAsyncFor; KWith; KAsyncWith;
   KExceptHandler].

Definition one_of (ks : list kind) (v : pyval) : Prop := exists k, In k ks /\ isa k v.

Section Seen.
  Variable e : env.
  (** Whether the names of inner scopes are left out. *)
  Variable outer : bool.

  (** The field [f] of [v] is looked at. *)
  Definition opens (v : pyval) (f : string) : Prop :=
    ~ one_of blind v /\ (one_of line_tested v -> counted e v) /\
    (isa KAnnAssign v -> c_eval_annotations (e_cfg e) = true) /\
    (function_def v -> f = "returns" -> c_eval_annotations (e_cfg e) = true) /\
    (outer = true -> ~ one_of scopes v).

  (** [seen n v]: a visit of [v] comes to [n]. What stands directly in a class is looked at twice, the
      second time without regard to what it is. *)
  Inductive seen (n : pyval) : pyval -> Prop :=
  | seen_here : is_node n = true -> seen n n
  | seen_child v f x : opens v f -> child f x v -> seen n x -> seen n v
  | seen_member v y f x : isa KClassDef v -> counted e v -> In y (items "body" v) -> child f x y -> seen n x -> seen n v.
End Seen.

(** ** Certain finds *)

(** Features that are found wherever a construct of theirs is seen. *)
Definition plain_flags : list flag :=
  [FPrintV3; FFormat27; FBytesV3; FFstrings; FBoolConst; FAnnotations; FVarAnnotations; FFinalAnnotations; FCoroutines;
   FAsyncComprehension; FAsyncFor; FNamedExprs; FKwOnlyArgs; FPosOnlyArgs; FNonlocal; FYieldFrom; FRaiseCause; FRaiseFromNone;
   FSetLiterals; FSetComp; FDictComp; FMatMult; FWith; FAsyncWith; FMultiWithitem; FGenUnpacking;
   FUnpackingAssign; FTypeAlias; FBytesFormat; FBytearrayFormat; FFuncDecorators; FClassDecorators; FRelaxedDecorators;
   FPatternMatching; FExceptStar; FMetaclass].

(** A name that nothing in [v] gives a meaning or a value. *)
Definition untouched (v : pyval) (x : string) : Prop := forall n, below n v -> ~ defines n x /\ ~ assigns n x.

(** [n] is not directly in a slice anywhere in [v]: nodes are told apart by their identity. *)
Definition no_slice (v n : pyval) : Prop :=
  forall m y, below m v -> isa KSubscript m -> direct_slice y m -> constant VEllipsis y -> uid_of y <> uid_of n.

(** A type for a union: None, or a name from outside the source. *)
Definition outside_type (v x : pyval) : Prop := none_literal x \/ exists t, is_name t x /\ untouched v t.

Section Certain.
  Variables (e : env) (v : pyval).

  Inductive certain : flag -> pyval -> Prop :=
  | ce_plain f n : In f plain_flags -> simple e f n -> certain f n
  | ce_long n : named "long" n -> is_excluded (e_cfg e) "long" = false -> untouched v "long" -> certain FLongV2 n
  | ce_pow n : simple e FModInversePow n -> untouched v "pow" -> certain FModInversePow n
  | ce_super n : simple e FSuperNoArgs n -> untouched v "super" -> certain FSuperNoArgs n
  | ce_self_doc n : isa KJoinedStr n -> In "fstring-self-doc" (c_features (e_cfg e)) ->
      (forall man, e_selfdoc e man n = Ok true) -> certain FFstringsSelfDoc n
  | ce_literal n : isa KAnnAssign n -> counted e n -> annotates "Literal" (attr "annotation" n) -> certain FLiteralAnnotations n
  | ce_literal_arg n a : function_def n -> counted e n -> attr "returns" n = VNone -> In a (items "args" (attr "args" n)) ->
      annotates "Literal" (attr "annotation" a) -> c_eval_annotations (e_cfg e) = true -> certain FLiteralAnnotations n
  | ce_maybe_var n : isa KAnnAssign n -> counted e n -> c_eval_annotations (e_cfg e) = false -> certain FMaybeAnnotations n
  | ce_maybe_arg n a : function_def n -> counted e n -> attr "returns" n = VNone -> In a (items "args" (attr "args" n)) ->
      annotates "Literal" (attr "annotation" a) -> c_eval_annotations (e_cfg e) = false -> certain FMaybeAnnotations n
  | ce_generic n t : isa KSubscript n -> counted e n -> is_name t (attr "value" n) -> In t builtin_generic_annotation_types ->
      c_eval_annotations (e_cfg e) = true -> untouched v t -> certain FBuiltinGeneric n
  | ce_maybe_generic n t : isa KSubscript n -> counted e n -> is_name t (attr "value" n) -> In t builtin_generic_annotation_types ->
      c_eval_annotations (e_cfg e) = false -> certain FMaybeAnnotations n
  | ce_dict_union n : isa KBinOp n -> isa KBitOr (attr "op" n) -> isa KDict (attr "left" n) -> isa KDict (attr "right" n) ->
      certain FDictUnion n
  | ce_dict_merge n : isa KAugAssign n -> counted e n -> isa KBitOr (attr "op" n) -> isa KName (attr "target" n) ->
      isa KDict (attr "value" n) -> certain FDictUnionMerge n
  | ce_union n : isa KBinOp n -> isa KBitOr (attr "op" n) -> In "union-types" (c_features (e_cfg e)) ->
      outside_type v (attr "left" n) -> outside_type v (attr "right" n) -> certain FUnionTypes n
  | ce_ellipsis n : constant VEllipsis n -> no_slice v n -> certain FEllipsis n.
End Certain.

(** ** Names the source defines (C40) *)

(** The statement [n] gives [x] a meaning where it stands: definitions of functions and classes,
    renamed imports, assignments of all forms. *)
Inductive binds_here (e : env) (x : string) (n : pyval) : Prop :=
| bh_def : function_def n \/ isa KClassDef n -> counted e n -> as_str (attr "name" n) = x -> binds_here e x n
| bh_import a : isa KImport n -> counted e n -> In a (items "names" n) -> attr "asname" a = VStr x -> binds_here e x n
| bh_from a m : isa KImportFrom n -> counted e n -> attr "module" n = VStr m -> (forall z, attr "level" n = VInt z -> z <= 0) ->
    In a (items "names" n) -> attr "asname" a = VStr x -> binds_here e x n
| bh_assign t : isa KAssign n -> counted e n -> In t (items "targets" n) -> bound x t -> binds_here e x n
| bh_target : isa KAugAssign n \/ isa KAnnAssign n \/ isa KNamedExpr n -> counted e n -> gives (attr "target" n) x -> binds_here e x n.

(** ** Uses of the library (C61) *)

(** Nothing in [v] gives the name a meaning; nor is it excluded. *)
Definition unnamed (v : pyval) (x : string) : Prop := forall n, below n v -> ~ defines n x.
Definition reportable (e : env) (v : pyval) (x : string) : Prop := unnamed v x /\ ~ In x (c_exclusions_set (e_cfg e)).

(** A dotted name written out, [b.x.y], where the variable [b] stands for [r]. *)
Definition ctx_node (c : pyval) : Prop := exists k u p, In k [KLoad; KStore; KDel] /\ c = VNode k u p [].
Inductive dotted_name (b r : string) : pyval -> string -> Prop :=
| dn_base u p u' p' c c' x : ctx_node c -> ctx_node c' ->
    dotted_name b r (VNode KAttribute u p [("value", VNode KName u' p' [("id", VStr b); ("ctx", c')]); ("attr", VStr x); ("ctx", c)])
                (r +++ "." +++ x)
| dn_attr u p m d c x : ctx_node c -> dotted_name b r m d ->
    dotted_name b r (VNode KAttribute u p [("value", m); ("attr", VStr x); ("ctx", c)]) (d +++ "." +++ x).

(** [from m import ...], not relative. *)
Definition from_module (e : env) (n : pyval) (m : string) : Prop :=
  isa KImportFrom n /\ counted e n /\ attr "module" n = VStr m /\ (forall z, attr "level" n = VInt z -> z <= 0).

Inductive loads (e : env) (n : pyval) : string -> Prop :=
| lo_import a : isa KImport n -> counted e n -> In a (items "names" n) -> loads e n (as_str (attr "name" a))
| lo_from m : from_module e n m -> loads e n m
| lo_from_name m a : from_module e n m -> In a (items "names" n) -> as_str (attr "name" a) <> "*" ->
    loads e n (m +++ "." +++ as_str (attr "name" a)).

(** The import [i] gives the module or member [m] the name [a]. *)
Inductive renames (e : env) (i : pyval) (a : string) : string -> Prop :=
| rn_import x : isa KImport i -> counted e i -> In x (items "names" i) -> attr "asname" x = VStr a ->
    renames e i a (as_str (attr "name" x))
| rn_from p x : from_module e i p -> In x (items "names" i) -> attr "asname" x = VStr a ->
    renames e i a (p +++ "." +++ as_str (attr "name" x)).
(** The import [i] takes [x] from the module [p]. *)
Definition brings (e : env) (i : pyval) (p x : string) : Prop :=
  from_module e i p /\ x <> "*" /\ exists a, In a (items "names" i) /\ as_str (attr "name" a) = x.

Section Uses.
  (** [L]: imports, and other nodes, that come before. *)
  Variables (e : env) (v : pyval) (L : list pyval).

  (** What [x] is where it is used: nothing imported from a module, not assigned, imported from [p] and
      from nowhere else, a name given to [m] and to nothing else. *)
  Definition not_imported (x : string) : Prop := forall n p, below n v -> ~ imports_from n p x.
  Definition unassigned (x : string) : Prop := forall n, below n v -> ~ assigns n x.
  Definition imported_as (x p : string) : Prop :=
    (exists i, In i L /\ brings e i p x) /\ forall n p', below n v -> imports_from n p' x -> p' = p.
  Definition renamed_as (x m : string) : Prop :=
    (exists i, In i L /\ renames e i x m) /\ forall n m', below n v -> aliases n x m' -> m' = m.
  (** The variable that a dotted name starts with. *)
  Inductive stands (b : string) : string -> Prop :=
  | sd_outside : unnamed v b -> stands b b
  | sd_renamed m : renamed_as b m -> stands b m.

  Inductive mentions (n : pyval) : string -> Prop :=
  | me_import a : isa KImport n -> counted e n -> In a (items "names" n) -> mentions n (as_str (attr "name" a))
  | me_from m a : from_module e n m -> In a (items "names" n) -> as_str (attr "name" a) <> "*" ->
      mentions n (m +++ "." +++ as_str (attr "name" a))
  | me_from_bare m a : from_module e n m -> In a (items "names" n) -> as_str (attr "name" a) <> "*" ->
      mentions n (as_str (attr "name" a))
  | me_call x : calls x n -> counted e n -> mentions n x
  | me_raise y x : isa KRaise n -> counted e n -> below y (attr "exc" n) \/ below y (attr "cause" n) -> named x y -> mentions n x
  | me_except y x : isa KExceptHandler n -> counted e n -> below y (attr "type" n) -> named x y -> mentions n x
  | me_dotted b r d : dotted_name b r n d -> stands b r -> mentions n d
  | me_dotted_from b p d : dotted_name b b n d -> unnamed v b -> imported_as b p -> reportable e v p -> p <> b ->
      mentions n (p +++ "." +++ d).

  (** A directive of the text: one with a letter, so that the digits are its width. *)
  Definition letter_directive (t d : string) : Prop := directive_in t d /\ forall c, d = chr c -> is_digit c = false.
  Definition formats_date (n : pyval) (d : string) : Prop :=
    isa KCall n /\ counted e n /\ isa KAttribute (attr "func" n) /\
    In (as_str (attr "attr" (attr "func" n))) ["strftime"; "strptime"] /\
    exists a t, In a (items "args" n) /\ constant (VStr t) a /\ letter_directive t d.
  Definition formats_bytes (n : pyval) (d : string) : Prop :=
    exists b, constant (VBytes b) n /\ letter_directive (const_text (VBytes b)) d.

  (** A call of the function [f]: by a dotted name, by the name it is imported with, by a new name. *)
  Definition calls_dotted (n : pyval) (f : string) : Prop :=
    isa KCall n /\ counted e n /\ exists b r, dotted_name b r (attr "func" n) f /\ stands b r.
  Definition calls_imported (n : pyval) (f : string) : Prop :=
    counted e n /\ exists x p, calls x n /\ imported_as x p /\ f = p +++ "." +++ x.
  Definition calls_renamed (n : pyval) (f : string) : Prop :=
    counted e n /\ exists x, calls x n /\ not_imported x /\ renamed_as x f.
  Definition gives_typecode (n : pyval) (d : string) : Prop :=
    (calls "array" n /\ counted e n \/ calls_dotted n "array.array" \/
     counted e n /\ exists x, x <> "print" /\ calls x n /\ renamed_as x "array.array") /\ exists a, In a (items "args" n) /\ constant (VStr d) a.
  Definition gives_handler (n c : pyval) : Prop :=
    exists f place, (calls_dotted n f \/ calls_imported n f \/ calls_renamed n f) /\
    In (f, place) codecs_errors_indices /\ literal_at [place] ["errors"] n c /\
    ~ In ("ceh=" +++ const_text c) (c_exclusions_set (e_cfg e)).
  Definition gives_encoding (n c : pyval) : Prop :=
    exists f places, (calls_dotted n f \/ calls_imported n f \/ calls_renamed n f) /\ In (f, places) codecs_encodings_indices /\
    ~ In ("ce=" +++ const_text c) (c_exclusions_set (e_cfg e)) /\
    ((exists i a, In i places /\ nth_error (items "args" n) i = Some a /\ constant c a) \/
     (exists w k i, In w (items "keywords" n) /\ attr "arg" w = VStr k /\ In k ["encoding"; "data_encoding"; "file_encoding"] /\
        constant c (attr "value" w) /\ In i places /\ nth_error (items "args" n) i = None)).

  (** A function with the decorator [d]: a dotted name, a name it is imported with, a new name. *)
  Inductive decorator_for (x : pyval) : string -> Prop :=
  | df_dotted b r d : dotted_name b r x d -> stands b r -> not_imported d -> unnamed v d -> decorator_for x d
  | df_imported f p : named f x -> imported_as f p -> decorator_for x (p +++ "." +++ f)
  | df_renamed f m : named f x -> not_imported f -> renamed_as f m -> decorator_for x m.
  Definition has_decorator (n : pyval) (d : string) : Prop :=
    function_def n /\ counted e n /\ exists x, In x (items "decorator_list" n) /\ counted e x /\ decorator_for x d.

  (** The function that the keyword arguments of the call [n] are for: called by a name that is neither
      imported nor assigned, by the name it is imported with, by a dotted name that starts with a
      module or with something imported. *)
  Definition no_dot (x : string) : Prop := forall a b, x <> a +++ "." +++ b.
  Inductive keywords_for (n : pyval) : string -> Prop :=
  | kf_name x : calls x n -> no_dot x -> not_imported x -> unassigned x -> keywords_for n x
  | kf_imported x p : calls x n -> imported_as x p -> keywords_for n (p +++ "." +++ x)
  | kf_dotted b r h t : dotted_name b r (attr "func" n) (h +++ "." +++ t) -> stands b r -> no_dot h ->
      not_imported (h +++ "." +++ t) -> not_imported h -> unassigned h -> keywords_for n (h +++ "." +++ t)
  | kf_dotted_from b t p : dotted_name b b (attr "func" n) (b +++ "." +++ t) -> unnamed v b -> no_dot b ->
      not_imported (b +++ "." +++ t) -> imported_as b p -> keywords_for n (p +++ "." +++ b +++ "." +++ t).
  (** The keyword argument [w] with the name [k] in a call of [f]. Calls in the call are by name: the
      code loses track of the function after one that is not, like [f()()]. *)
  Definition keyword_of (n w : pyval) (f : string) (k : option string) : Prop :=
    isa KCall n /\ counted e n /\ keywords_for n f /\ In w (items "keywords" n) /\ keyword_arg w k /\
    (forall c, below c n -> isa KCall c -> named_call c) /\
    unnamed v f /\ ~ In (f +++ "(" +++ (match k with Some x => x | None => "None" end) +++ ")") (c_exclusions_set (e_cfg e)).

  (** ** What variables hold *)

  (** What a value is called: a dict display, a call of [t], a dotted name [t] that is written out. *)
  Inductive value_name (w : pyval) : string -> Prop :=
  | vn_dict : isa KDict w -> value_name w "dict"
  | vn_call t : isa KCall w -> is_name t (attr "func" w) -> value_name w t
  | vn_dotted_call b t : isa KCall w -> dotted_name b b (attr "func" w) t -> unnamed v b -> value_name w t
  | vn_dotted b t : dotted_name b b w t -> unnamed v b -> value_name w t.
  (** The statement [i] gives the variable [x] the value [w]. *)
  Definition gives_value (i : pyval) (x : string) (w : pyval) : Prop :=
    counted e i /\ w = attr "value" i /\
    ((isa KAssign i /\ exists t, In t (items "targets" i) /\ is_name x t) \/ (isa KAnnAssign i /\ is_name x (attr "target" i))).
  (** The variable [x] has been given a value called [t], and never one with another name. Loops give it
      dicts, if anything. *)
  Definition holds (x t : string) : Prop :=
    (exists i w, In i L /\ gives_value i x w /\ value_name w t) /\
    forall n, below n v -> assigns n x ->
      (isa KFor n \/ isa KAsyncFor n -> t = "dict") /\
      (value_name (attr "value" n) t \/ isa KName (attr "value" n) \/ attr "value" n = VNone).
  (** The variable [x] has been given the type [t], or is a class. *)
  Definition holds_type (x t : string) : Prop :=
    exists i, In i L /\ ((exists w, gives_value i x w /\ is_name t w) \/
      (isa KClassDef i /\ counted e i /\ as_str (attr "name" i) = x /\ t = x)).

  (** The name [t] is one for [f]: by an import, by a new name, by itself. *)
  Inductive name_for (t : string) : string -> Prop :=
  | nf_imported p : unnamed v t -> imported_as t p -> name_for t (p +++ "." +++ t)
  | nf_renamed m : renamed_as t m -> name_for t m
  | nf_itself : unnamed v t -> not_imported t -> name_for t t.
  (** The expression is the name [t], a call of it, or a dotted name [t]. *)
  Inductive written (x : pyval) : string -> Prop :=
  | wr_name t : is_name t x -> written x t
  | wr_call t : isa KCall x -> is_name t (attr "func" x) -> written x t
  | wr_dotted b r d : dotted_name b r x d -> stands b r -> written x d.
  (** The expression stands for [f]: it is written so, or is a variable with a value of that name. *)
  Definition means (x : pyval) (f : string) : Prop :=
    exists t, written x t /\ (unassigned t /\ name_for t f \/ exists t', holds t t' /\ name_for t' f).

  (** Dicts, and what can be united with dicts. *)
  Inductive plain_dict (x : pyval) : Prop :=
  | pd_display : isa KDict x -> plain_dict x
  | pd_call : isa KCall x -> is_name "dict" (attr "func" x) -> plain_dict x
  | pd_variable a : is_name a x -> holds a "dict" -> plain_dict x.
  Definition dict_like (types : list string) (x : pyval) : Prop := plain_dict x \/ exists f, means x f /\ In f types.

  (** Types for a union: None, a name from outside the source, a dotted one, a class or a variable with a type. *)
  Inductive type_like (x : pyval) : Prop :=
  | tl_outside : outside_type v x -> type_like x
  | tl_dotted b r d : dotted_name b r x d -> stands b r -> untouched v d -> type_like x
  | tl_variable a t : is_name a x -> holds_type a t -> type_like x.
  (** Types that can have parameters: by a dotted name, imported, by a variable for the type. *)
  Inductive generic_like (x : pyval) (t : string) : Prop :=
  | gl_dotted b r : dotted_name b r x t -> stands b r -> generic_like x t
  | gl_imported a p : is_name a x -> ~ In a builtin_generic_annotation_types -> imported_as a p -> t = p +++ "." +++ a -> generic_like x t
  | gl_variable a : is_name a x -> ~ In a builtin_generic_annotation_types -> not_imported a -> holds_type a t -> generic_like x t.

  (** Features that show by what names stand for. *)
  Inductive stood : flag -> pyval -> Prop :=
  | so_union n : isa KBinOp n -> isa KBitOr (attr "op" n) -> dict_like dict_union_supported_types (attr "left" n) ->
      dict_like dict_union_supported_types (attr "right" n) -> stood FDictUnion n
  | so_merge n : isa KAugAssign n -> counted e n -> isa KBitOr (attr "op" n) -> plain_dict (attr "value" n) ->
      dict_like dict_union_merge_supported_types (attr "target" n) -> stood FDictUnionMerge n
  | so_types n : isa KBinOp n -> isa KBitOr (attr "op" n) -> In "union-types" (c_features (e_cfg e)) ->
      type_like (attr "left" n) -> type_like (attr "right" n) -> stood FUnionTypes n
  | so_generic n t : isa KSubscript n -> counted e n -> generic_like (attr "value" n) t -> In t builtin_generic_annotation_types ->
      c_eval_annotations (e_cfg e) = true -> unnamed v t -> stood FBuiltinGeneric n
  | so_maybe_generic n t : isa KSubscript n -> counted e n -> generic_like (attr "value" n) t -> In t builtin_generic_annotation_types ->
      c_eval_annotations (e_cfg e) = false -> stood FMaybeAnnotations n.
End Uses.

(** [reached v L n]: an analysis of [v] comes to [n], and to the nodes [L] before. Parts of a call's
    keyword arguments are looked at if the function is none of the source's own. *)
Inductive reached (e : env) (v : pyval) : list pyval -> pyval -> Prop :=
| rc_root : is_node v = true -> reached e v [] v
| rc_field L w f x : reached e v L w -> opens e false w f -> In (f, x) (fields w) -> is_node x = true -> reached e v L x
| rc_item L w f l1 x l2 J : reached e v L w -> opens e false w f -> In (f, VList (l1 ++ x :: l2)) (fields w) -> is_node x = true ->
    (forall j, In j J -> exists y, In y l1 /\ seen e false j y) -> reached e v (J ++ L) x
| rc_member L w y f x : reached e v L w -> isa KClassDef w -> counted e w -> In y (items "body" w) -> child f x y -> reached e v L x
| rc_keyword L n w f k g x : reached e v L n -> keyword_of e v L n w f k -> child g x w -> reached e v L x.

(** [sight stops n v]: a visit of [v] comes to [n] without going through a node of the classes [stops]. *)
Inductive sight (e : env) (stops : list kind) (n : pyval) : pyval -> Prop :=
| sg_here : is_node n = true -> sight e stops n n
| sg_child v f x : ~ one_of stops v -> opens e false v f -> child f x v -> sight e stops n x -> sight e stops n v.
(** The same for a node that is strictly inside [v]. *)
Definition sighted (e : env) (stops : list kind) (n v : pyval) : Prop :=
  exists f x, opens e false v f /\ child f x v /\ sight e stops n x.

(** Arguments of a function of a module that may stand in for attributes of the module. *)
Definition few_args (n : pyval) (count : nat) : Prop :=
  items "posonlyargs" (attr "args" n) = [] /\ items "kwonlyargs" (attr "args" n) = [] /\ attr "kwarg" (attr "args" n) = VNone /\
  List.length (items "args" (attr "args" n)) = count.

(** [with] and [(] with nothing but blanks between, starting on the line, at most ten lines apart. *)
Definition with_paren_near (e : env) (line : Z) : Prop :=
  exists src l ls a w b,
    e_source e = Some src /\ 0 < line /\ lines_from src line = l :: ls /\
    join nl (firstn 11 (l :: ls)) = a +++ "with" +++ w +++ "(" +++ b /\
    blank_or_backslash w /\ (String.length a < String.length l)%nat.

(** [certain], and what depends on the statements around. *)
Inductive shown (e : env) (v : pyval) : flag -> pyval -> Prop :=
| sn_certain f n : certain e v f n -> shown e v f n
| sn_with_parens n x y l : with_stmt n -> counted e n -> items "items" n = x :: y :: l -> with_paren_near e (lineno n) ->
    shown e v FWithParens n
| sn_async_generator n y w : isa KAsyncFunctionDef n -> counted e n -> sighted e yield_stops y n -> isa KYield y -> counted e y ->
    sighted e await_stops w n -> isa KAwait w -> counted e w -> shown e v FAsyncGenerator n
| sn_await_in_comp n w : isa Kcomprehension n -> sighted e await_stops w n -> isa KAwait w -> counted e w ->
    shown e v FAwaitInComprehension n
| sn_continue n x c : isa KTry n -> counted e n -> In x (items "finalbody" n) -> sight e loops c x -> isa KContinue c ->
    shown e v FContinueInFinally n
| sn_module_dir n : isa KModule v -> In n (items "body" v) -> function_def n -> counted e n -> is_init_file e = true ->
    attr "name" n = VStr "__dir__" -> few_args n 0 -> shown e v FModuleDir n
| sn_module_getattr n : isa KModule v -> In n (items "body" v) -> function_def n -> counted e n -> is_init_file e = true ->
    attr "name" n = VStr "__getattr__" -> few_args n 1 -> shown e v FModuleGetattr n.

(** The construct at [n] asks for the versions [m]: a feature, or something of the library that the
    rules know. *)
Inductive asks (e : env) (v : pyval) (L : list pyval) (bps : list string) (n : pyval) (m : mins) : Prop :=
| as_feature f : shown e v f n -> documented f m -> asks e v L bps n m
| as_name f : stood e v L f n -> documented f m -> asks e v L bps n m
| as_module x : loads e n x -> reportable e v x -> mod_req bps x = Some m -> asks e v L bps n m
| as_member x : mentions e v L n x -> reportable e v x -> mem_req bps x = Some m -> asks e v L bps n m
| as_keyword w f k : keyword_of e v L n w f (Some k) -> kwarg_req bps (f, k) = Some m -> asks e v L bps n m
| as_date d : formats_date e n d -> In (d, m) strftime_reqs -> asks e v L bps n m
| as_bytes d : formats_bytes n d -> In (d, m) bytes_reqs -> asks e v L bps n m
| as_typecode d : gives_typecode e v L n d -> In (d, m) array_typecode_reqs -> asks e v L bps n m
| as_handler h : gives_handler e v L n (VStr h) -> In (h, m) codecs_error_handlers_reqs -> asks e v L bps n m
| as_encoding x k : gives_encoding e v L n (VStr x) -> In (k, m) codecs_encodings_reqs -> by_name k (lower x) -> asks e v L bps n m
| as_decorator d : has_decorator e v L n d -> reportable e v d -> In (d, m) decorator_user_functions -> asks e v L bps n m.
